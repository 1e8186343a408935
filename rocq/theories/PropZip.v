(** Properties C39-C46, and the archive part of C33: writer histories, hostile and
    damaged archives, ZIP layout. *)
From Coq Require Import String ZArith List Bool Lia Permutation Sorted.
From Verif Require Import Base Stream BaseFacts Dtype Values Spec ValuesFacts PropValues Header HeaderFacts
  ParseFacts ParserInv ParserRel NpyFacts Tensor Npy TensorFacts PropTensor SaveFacts PropNpy
  Crc PropCrc Npz NpzFacts ArchiveFacts PropNpz.
Import ListNotations.
Open Scope Z_scope.
Local Open Scope monad_scope.

(** ** Writer histories *)
Inductive op := Write (name : bytes) (t : tensor) | Close.
(** A call and what it returns; a throwing write leaves the writer as it was. *)
Definition call (v : env) (c : codec) (w : writer) (o : op) : outcome unit * writer :=
  match o with
  | Write n t => match w_write v c w n t with
                 | Ok w' => (Ok tt, w')
                 | Throw x => (Throw x, w)
                 | AssertFail => (AssertFail, w)
                 | Undef u => (Undef u, w)
                 end
  | Close => (Ok tt, w_close w)
  end.
Fixpoint history (v : env) (c : codec) (w : writer) (ops : list op) : list (outcome unit) * writer :=
  match ops with
  | [] => ([], w)
  | o :: r => let (x, w1) := call v c w o in let (xs, w2) := history v c w1 r in (x :: xs, w2)
  end.

(** *** C39 *)
Lemma closed_stays v c w o : w_closed w = true ->
  call v c w o = (match o with Write _ _ => Throw RuntimeError | Close => Ok tt end, w).
Proof. intros H. destruct o; cbn [call]; unfold w_write, w_write_on, w_close, w_close_on; fold w_write_file; fold close_archive; now rewrite H. Qed.
Lemma history_app v c a : forall w b, history v c w (a ++ b) =
  (fst (history v c w a) ++ fst (history v c (snd (history v c w a)) b), snd (history v c (snd (history v c w a)) b)).
Proof.
  induction a as [|o a IH]; intros w b; cbn [app history fst snd]; [now destruct (history v c w b)|].
  destruct (call v c w o) as [x w1]. rewrite IH. destruct (history v c w1 a) as [xs w2]. reflexivity.
Qed.
Theorem C39_closing : forall v c w before after,
  let closed := snd (history v c w (before ++ [Close])) in
  fst (history v c closed after) = map (fun o => match o with Write _ _ => Throw RuntimeError | Close => Ok tt end) after /\
  snd (history v c closed after) = closed /\ w_destroy closed = closed /\
  w_destroy (snd (history v c w before)) = closed.
Proof.
  intros v c w before after closed.
  assert (w_closed closed = true) as HC.
  { unfold closed. rewrite history_app. cbn [history call snd]. unfold w_close, w_close_on; fold close_archive.
    destruct (w_closed (snd (history v c w before))) eqn:E; [exact E|reflexivity]. }
  split; [|split; [|split]].
  - clearbody closed. induction after as [|o l IH]; [reflexivity|]. cbn [history map]. rewrite closed_stays by exact HC.
    destruct (history v c closed l). cbn [fst] in *. now f_equal.
  - clearbody closed. induction after as [|o l IH]; [reflexivity|]. cbn [history]. rewrite closed_stays by exact HC.
    destruct (history v c closed l). exact IH.
  - unfold w_destroy. now rewrite HC.
  - unfold closed, w_destroy. rewrite history_app. cbn [history call snd]. unfold w_close, w_close_on; fold close_archive.
    destruct (w_closed (snd (history v c w before))); reflexivity.
Qed.
Print Assumptions C39_closing.
Example C39_case : fst (history case_env (mk_codec Ok Ok) (new_writer STORED BIG)
    [Write (str "a") case_tensor; Close; Close; Write (str "b") case_tensor]) = [Ok tt; Ok tt; Ok tt; Throw RuntimeError] /\
  len (w_str (snd (history case_env (mk_codec Ok Ok) (new_writer STORED BIG) [Write (str "a") case_tensor]))) = 179.
Proof. split; vm_compute; reflexivity. Qed.

(** *** C40 *)
Lemma call_grows v c w o : exists t, w_str (snd (call v c w o)) = w_str w ++ t.
Proof.
  unfold w_str. destruct o as [n t|]; cbn [call].
  - destruct (w_write v c w n t) as [w'|?| |?] eqn:E; cbn [snd]; try (exists []; now rewrite app_nil_r).
    unfold w_write, w_write_on in E; fold w_write_file in E. destruct (w_closed w); [discriminate|].
    destruct (save v t (w_endian w)) as [b|?| |?]; try discriminate. cbn [obind] in E.
    now apply w_write_file_grows in E as (E & _).
  - cbn [snd]. unfold w_close, w_close_on; fold close_archive. destruct (w_closed w); [exists []; now rewrite app_nil_r|]. cbn [w_out].
    unfold close_archive, close_archive_on.
    match goal with |- context [owrite (owrite ?o ?a) ?b] =>
      destruct (owrite_prefix o a) as [t1 H1]; destruct (owrite_prefix (owrite o a) b) as [t2 H2] end.
    exists (t1 ++ t2). now rewrite H2, H1, app_assoc.
Qed.
Theorem C40_append_only : forall v c w before after,
  exists t, w_str (snd (history v c w (before ++ after))) = w_str (snd (history v c w before)) ++ t.
Proof.
  intros v c w before after. rewrite history_app. cbn [snd]. set (w1 := snd (history v c w before)). clearbody w1.
  revert w1. induction after as [|o l IH]; intros w1; [exists []; now rewrite app_nil_r|].
  cbn [history]. pose proof (call_grows v c w1 o) as [t1 H1]. destruct (call v c w1 o) as [x w2]. cbn [snd] in H1.
  destruct (IH w2) as [t2 H2]. destruct (history v c w2 l) as [xs w3]. cbn [snd] in *.
  exists (t1 ++ t2). now rewrite H2, H1, app_assoc.
Qed.
Print Assumptions C40_append_only.
(** Successful writes do append something: a local header and the data. *)
Theorem C40_writes_append : forall v c w n t w', w_write v c w n t = Ok w' -> o_ok (w_out w) = true ->
  len (w_str w) + 30 + len (npy_name n) <= len (w_str w').
Proof.
  intros v c w n t w' H Ho. unfold w_write, w_write_on in H; fold w_write_file in H. destruct (w_closed w) eqn:Ec; [discriminate|].
  destruct (save v t (w_endian w)) as [b|?| |?]; try discriminate. cbn [obind] in H.
  unfold w_write_file, w_write_file_on in H; fold write_file in H. rewrite Ec in H. unfold write_file, write_file_on in H.
  match type of H with context [@obind bytes _ ?x _] => destruct x as [cb|?| |?]; try discriminate end.
  cbn [obind fst snd] in H. injection H as <-. unfold w_str. cbn [w_out]. unfold owrite. rewrite Ho. cbn [o_ok o_bytes].
  rewrite !len_app. unfold write_local_header. rewrite !len_app. cbn [f_name]. rewrite archive_name_npy.
  assert (forall z, len (write_shared_header z) = 22) as HSh by (intros z; unfold write_shared_header; rewrite !len_app, !len_write32, !len_write16, len_write32u; reflexivity).
  rewrite HSh, !len_write16. change (len LOCAL_HEADER_SIG) with 4.
  repeat match goal with |- context [len ?x] => lazymatch goal with _ : 0 <= len x |- _ => fail | _ => pose proof (len_nonneg _ x) end end.
  lia.
Qed.
Print Assumptions C40_writes_append.
Example C40_case : exists w', w_write case_env (mk_codec Ok Ok) (new_writer DEFLATED BIG) (str "a") case_tensor = Ok w' /\
  o_ok (w_out (new_writer DEFLATED BIG)) = true /\ len (w_str w') = 179.
Proof. eexists. split; [vm_compute; reflexivity|]. split; reflexivity. Qed.
(** A file writer whose file did not open takes every write without complaint and
    produces nothing. *)
Theorem C40_unopened_file_writer_loses_everything : forall v c m e ops,
  w_str (snd (history v c (new_file_writer false m e) ops)) = [].
Proof.
  intros v c m e ops.
  assert (forall l w, o_ok (w_out w) = false -> w_str w = [] -> w_str (snd (history v c w l)) = []) as H; [|apply H; reflexivity].
  induction l as [|o l IH]; intros w Ho Hs; [exact Hs|]. cbn [history].
  assert (o_ok (w_out (snd (call v c w o))) = false /\ w_str (snd (call v c w o)) = []) as [H1 H2].
  { destruct o as [n t|]; cbn [call].
    - destruct (w_write v c w n t) as [w'|?| |?] eqn:E; cbn [snd]; auto.
      unfold w_write, w_write_on in E; fold w_write_file in E. destruct (w_closed w) eqn:Ec; [discriminate|].
      destruct (save v t (w_endian w)) as [b|?| |?]; try discriminate. cbn [obind] in E.
      unfold w_write_file, w_write_file_on in E; fold write_file in E. rewrite Ec in E. unfold write_file, write_file_on in E.
      match type of E with context [@obind bytes _ ?x _] => destruct x as [cb|?| |?]; try discriminate end.
      cbn [obind fst snd] in E. injection E as <-. unfold w_str in *. cbn [w_out]. unfold owrite. rewrite Ho, Ho. auto.
    - cbn [snd]. unfold w_close, w_close_on; fold close_archive. destruct (w_closed w); auto. unfold w_str in *. cbn [w_out]. unfold close_archive, close_archive_on, owrite. rewrite Ho, Ho. auto. }
  destruct (call v c w o) as [x w1]. cbn [snd] in *. specialize (IH w1 H1 H2). destruct (history v c w1 l). exact IH.
Qed.
Print Assumptions C40_unopened_file_writer_loses_everything.
Example C40_unopened_case : fst (history case_env (mk_codec Ok Ok) (new_file_writer false STORED BIG)
  [Write (str "a") case_tensor; Close]) = [Ok tt; Ok tt].
Proof. vm_compute. reflexivity. Qed.

(** ** Any bytes as an archive *)
(** Position [off] of the bytes [a], as a string stream or a file. *)
Definition at_pos (a : bytes) (off : Z) (file : bool) : istream := mk_istream a (zdrop off a) false false file.
(** A directory record somewhere in [a] reads as [e]; the local header at [off] of
    [a] reads as [l] and the data starts where [s'] stands. *)
Definition directory_record (a : bytes) (e : file_entry) : Prop :=
  exists off file s', 0 <= off /\ read_cd_header (at_pos a off file) = (Ok e, s').
Definition local_header_at (file : bool) (a : bytes) (off : Z) (l : file_entry) (s' : istream) : Prop :=
  read_local_header (at_pos a off file) = (Ok l, s').

Definition sane (s : istream) : Prop := exists off, 0 <= off /\ rest s = zdrop off (whole s).
Definition keeps {A} (m : IO A) : Prop := forall s, let s' := snd (m s) in
  whole s' = whole s /\ is_file s' = is_file s /\ (sane s -> sane s') /\ (failb s = true -> failb s' = true).
Lemma keeps_bind {A B} (m : IO A) (k : A -> IO B) : keeps m -> (forall a, keeps (k a)) -> keeps (bind m k).
Proof.
  intros H1 H2 s. unfold bind. specialize (H1 s). destruct (m s) as [[a|?| |?] s1]; cbn [snd] in *; auto.
  specialize (H2 a s1). destruct H1 as (E1 & E2 & E3 & E4), H2 as (F1 & F2 & F3 & F4). repeat split; try congruence; auto.
Qed.
Lemma keeps_ret {A} (a : A) : keeps (ret a). Proof. intros s. cbn. auto. Qed.
Lemma keeps_lift {A} (o : outcome A) : keeps (lift o). Proof. intros s. cbn. auto. Qed.
Lemma sread_keeps n s : let s' := snd (sread n s) in
  whole s' = whole s /\ is_file s' = is_file s /\ (sane s -> sane s') /\ (failb s = true -> failb s' = true).
Proof.
  assert (sane s -> sane (set_rest s (zdrop n (rest s)))) as HZ.
  { intros (off & H0 & HR). exists (Z.max 0 n + off). split; [lia|]. cbn [rest whole set_rest].
    rewrite HR. destruct (n <=? 0) eqn:En.
    - rewrite (zdrop_0 _ n) by lia. f_equal. lia.
    - rewrite zdrop_zdrop by lia. f_equal. lia. }
  unfold sread. destruct (good s) eqn:G; cbv zeta.
  - destruct (len (ztake n (rest s)) <? n); cbn [snd]; (split; [reflexivity|split; [reflexivity|split; [exact HZ|auto]]]).
  - cbn [snd]. unfold set_fail. cbn. auto.
Qed.
Lemma sget_keeps s : let s' := snd (sget s) in
  whole s' = whole s /\ is_file s' = is_file s /\ (sane s -> sane s') /\ (failb s = true -> failb s' = true).
Proof.
  unfold sget. destruct (good s) eqn:G.
  - destruct (rest s) as [|x t] eqn:E; cbn [snd].
    + split; [reflexivity|split; [reflexivity|split; [auto|auto]]].
    + split; [reflexivity|split; [reflexivity|split; [|auto]]].
      intros (off & H0 & HR). exists (1 + off). split; [lia|]. cbn [rest whole set_rest].
      rewrite <- (zdrop_zdrop _ 1 off) by lia. rewrite <- HR, E. symmetry. now apply (zdrop_app_exact _ 1 [x] t).
  - cbn [snd]. split; [reflexivity|split; [reflexivity|split; [auto|auto]]].
Qed.
Lemma seek_keeps p s : let s' := sseek_abs p s in
  whole s' = whole s /\ is_file s' = is_file s /\ (sane s -> sane s') /\ (failb s = true -> failb s' = true).
Proof.
  unfold sseek_abs. destruct (failb s) eqn:F.
  { split; [reflexivity|split; [reflexivity|split; [auto|auto]]]. }
  destruct ((p <? 0) || _) eqn:E.
  - split; [reflexivity|split; [reflexivity|split; [auto|discriminate]]].
  - split; [reflexivity|split; [reflexivity|split; [|discriminate]]].
    intros _. exists p. split; [lia|reflexivity].
Qed.
Lemma keeps_seek (f : istream -> Z) : keeps (fun s => (Ok tt, sseek_abs (f s) s)).
Proof. intros s. apply (seek_keeps (f s) s). Qed.
Lemma keeps_rd16 : keeps rd16.
Proof.
  intros s. unfold rd16, of_fun, read16.
  pose proof (sget_keeps s) as (E1 & E2 & E3 & E4). destruct (sget s) as [a s1]. cbn [snd] in *.
  pose proof (sget_keeps s1) as (F1 & F2 & F3 & F4). destruct (sget s1) as [b s2]. cbn [snd] in *.
  repeat split; try congruence; auto.
Qed.
Lemma read_le_keeps w n : forall sh acc s, let s' := snd (read_le w n sh acc s) in
  whole s' = whole s /\ is_file s' = is_file s /\ (sane s -> sane s') /\ (failb s = true -> failb s' = true).
Proof.
  induction n as [|n IH]; intros sh acc s; cbn [read_le]; [cbn; auto|].
  pose proof (sget_keeps s) as (E1 & E2 & E3 & E4). destruct (sget s) as [a s1]. cbn [snd] in *.
  destruct (IH (sh + 8) (Z.lor acc (Z.shiftl (a mod 2 ^ w) sh mod 2 ^ w)) s1) as (F1 & F2 & F3 & F4).
  repeat split; try congruence; auto.
Qed.
Lemma keeps_rd32 : keeps rd32.
Proof. intros s. pose proof (read_le_keeps 32 4 0 0 s) as H. unfold rd32, of_fun, read32. destruct (read_le 32 4 0 0 s). exact H. Qed.
Lemma keeps_rd64 : keeps rd64.
Proof. intros s. pose proof (read_le_keeps 64 8 0 0 s) as H. unfold rd64, of_fun, read64. destruct (read_le 64 8 0 0 s). exact H. Qed.
Lemma keeps_name n : keeps (read_name n).
Proof. intros s. pose proof (sread_keeps n s) as H. unfold read_name. destruct (sread n s). exact H. Qed.
Lemma keeps_sig x : keeps (assert_sig x).
Proof. intros s. pose proof (sread_keeps 4 s) as H. unfold assert_sig. destruct (sread 4 s). exact H. Qed.
Lemma keeps_zip64 h io : keeps (read_zip64_extra h io).
Proof.
  unfold read_zip64_extra. apply keeps_bind; [apply keeps_rd16|]. intros tag. destruct (negb _); [apply keeps_lift|].
  apply keeps_bind; [apply keeps_rd16|]. intros actual.
  apply keeps_bind; [destruct (_ =? _); [apply keeps_bind; [apply keeps_rd64|intros; apply keeps_ret]|apply keeps_ret]|]. intros x1.
  apply keeps_bind; [destruct (_ =? _); [apply keeps_bind; [apply keeps_rd64|intros; apply keeps_ret]|apply keeps_ret]|]. intros x2.
  apply keeps_bind; [destruct (_ && _); [apply keeps_bind; [apply keeps_rd64|intros; apply keeps_ret]|apply keeps_ret]|]. intros x3.
  cbv zeta. destruct (_ <? _); [apply keeps_lift|]. destruct (_ >? _); [|apply keeps_ret].
  intros s. cbn [snd]. unfold sseek_cur. apply seek_keeps.
Qed.
Lemma keeps_shared : keeps read_shared_header.
Proof.
  unfold read_shared_header.
  repeat (apply keeps_bind; [first [apply keeps_rd16|apply keeps_rd32]|intros ?]). apply keeps_ret.
Qed.
Lemma keeps_local : keeps read_local_header.
Proof.
  unfold read_local_header. apply keeps_bind; [apply keeps_sig|intros ?]. apply keeps_bind; [apply keeps_rd16|intros ver].
  destruct (_ >? _); [apply keeps_lift|]. apply keeps_bind; [apply keeps_shared|intros [[[[m c] cs] us] nl]].
  apply keeps_bind; [apply keeps_rd16|intros ex]. apply keeps_bind; [apply keeps_name|intros nm].
  cbv zeta. destruct (_ >? _); [apply keeps_zip64|apply keeps_ret].
Qed.
Lemma keeps_cd : keeps read_cd_header.
Proof.
  unfold read_cd_header. apply keeps_bind; [apply keeps_sig|intros ?].
  apply keeps_bind; [apply keeps_rd16|intros ?]. apply keeps_bind; [apply keeps_rd16|intros ver].
  destruct (_ >? _); [apply keeps_lift|]. apply keeps_bind; [apply keeps_shared|intros [[[[m c] cs] us] nl]].
  repeat (apply keeps_bind; [first [apply keeps_rd16|apply keeps_rd32|apply keeps_name]|intros ?]).
  cbv zeta. destruct (_ >? _); [apply keeps_zip64|apply keeps_ret].
Qed.
Lemma keeps_eocd : keeps read_eocd.
Proof.
  unfold read_eocd. apply keeps_bind; [apply keeps_sig|intros ?].
  repeat (apply keeps_bind; [first [apply keeps_rd16|apply keeps_rd32]|intros ?]). apply keeps_ret.
Qed.
Lemma keeps_loop n : forall m ks, keeps (read_cd_loop n m ks).
Proof. induction n as [|n IH]; intros m ks; [apply keeps_ret|]. cbn [read_cd_loop]. apply keeps_bind; [apply keeps_cd|intros e; apply IH]. Qed.
Lemma keeps_file v c mp n : keeps (read_file v c mp n).
Proof.
  unfold read_file. destruct (find_entry mp n) as [e|]; [|apply keeps_lift].
  apply keeps_bind; [apply keeps_seek|intros _]. apply keeps_bind; [apply keeps_local|intros l].
  destruct (negb _); [apply keeps_lift|]. destruct (_ >? _); [apply keeps_lift|].
  apply keeps_bind; [apply keeps_name|intros raw]. apply keeps_bind; [destruct (_ =? _); [apply keeps_lift|apply keeps_ret]|intros b].
  destruct (_ =? _); [apply keeps_ret|apply keeps_lift].
Qed.

Lemma assert_sig_ok x s s' : assert_sig x s = (Ok tt, s') -> good s = true /\ exists t, rest s = x ++ t /\ len x = 4.
Proof.
  unfold assert_sig, sread. destruct (good s) eqn:G; [|cbn; discriminate]. cbv zeta.
  assert (forall s0, (if len (ztake 4 (rest s)) <? 4 then Undef UninitRead else if beq (ztake 4 (rest s)) x then Ok tt else Throw RuntimeError, s0) = (Ok tt, s') ->
     true = true /\ exists t, rest s = x ++ t /\ len x = 4) as H.
  { intros s0. destruct (len (ztake 4 (rest s)) <? 4) eqn:E2; [discriminate|].
    destruct (beq (ztake 4 (rest s)) x) eqn:EB; [|discriminate]. intros _. split; [reflexivity|].
    apply beq_eq in EB. exists (zdrop 4 (rest s)). split; [rewrite <- EB; symmetry; apply ztake_zdrop|].
    rewrite <- EB, len_ztake in *. lia. }
  specialize (H (set_rest s (zdrop 4 (rest s)))). destruct (len (ztake 4 (rest s)) <? 4) eqn:E; cbv beta iota; [rewrite E; discriminate|rewrite E; apply H].
Qed.
Lemma sane_good_at s : sane s -> good s = true -> exists off, 0 <= off /\ s = at_pos (whole s) off (is_file s).
Proof.
  intros (off & H0 & HR) G. exists off. split; [exact H0|]. unfold good in G. apply andb_true_iff in G as [G1 G2].
  unfold at_pos. destruct s as [w r e f i]. cbn in *. subst r. apply negb_true_iff in G1, G2. now subst.
Qed.
Lemma bind_ok_inv {A B} (m : IO A) (k : A -> IO B) s b s' : bind m k s = (Ok b, s') -> exists a s1, m s = (Ok a, s1) /\ k a s1 = (Ok b, s').
Proof. unfold bind. destruct (m s) as [[a|?| |?] s1]; try discriminate. eauto. Qed.
Lemma cd_ok_good s e s' : read_cd_header s = (Ok e, s') -> good s = true.
Proof. intros H. unfold read_cd_header in H. apply bind_ok_inv in H as (u & s1 & H & _). destruct u. now apply assert_sig_ok in H. Qed.
Lemma local_ok_good s e s' : read_local_header s = (Ok e, s') -> good s = true.
Proof. intros H. unfold read_local_header in H. apply bind_ok_inv in H as (u & s1 & H & _). destruct u. now apply assert_sig_ok in H. Qed.

(** Offsets read are 64-bit numbers. *)
Definition gives {A} (m : IO A) (P : A -> Prop) : Prop := forall s a s', m s = (Ok a, s') -> P a.
Lemma gives_bind {A B} (m : IO A) (k : A -> IO B) P Q : gives m P -> (forall a, P a -> gives (k a) Q) -> gives (bind m k) Q.
Proof. intros H1 H2 s b s' H. apply bind_ok_inv in H as (a & s1 & Ha & Hb). eapply H2; eauto. Qed.
Lemma gives_ret {A} (a : A) (P : A -> Prop) : P a -> gives (ret a) P.
Proof. intros H s x s' E. unfold ret in E. now injection E as <- _. Qed.
Lemma gives_lift {A} (o : outcome A) (P : A -> Prop) : (forall a, o = Ok a -> P a) -> gives (lift o) P.
Proof. intros H s x s' E. unfold lift in E. injection E as -> _. auto. Qed.
Lemma gives_any {A} (m : IO A) : gives m (fun _ => True). Proof. intros s a s' _. exact I. Qed.
Lemma lor_range a b w : 0 <= w -> 0 <= a < 2 ^ w -> 0 <= b < 2 ^ w -> 0 <= Z.lor a b < 2 ^ w.
Proof.
  intros Hw Ha Hb. assert (0 <= Z.lor a b) as H0 by (apply Z.lor_nonneg; lia). split; [exact H0|].
  destruct (Z.eq_dec (Z.lor a b) 0) as [->|]; [apply Z.pow_pos_nonneg; lia|].
  apply Z.log2_lt_pow2; [lia|]. rewrite Z.log2_lor by lia.
  assert (forall x, 0 <= x < 2 ^ w -> Z.log2 x < w \/ x = 0) as HX.
  { intros x Hx. destruct (Z.eq_dec x 0); [auto|]. left. apply Z.log2_lt_pow2; lia. }
  destruct (HX a Ha) as [H1|H1], (HX b Hb) as [H2|H2]; subst; rewrite ?Z.lor_0_l, ?Z.lor_0_r in n; cbn [Z.log2] in *; try lia.
  - destruct (Z.eq_dec w 0) as [->|]; [|lia]. cbn in Ha. assert (a = 0) by lia. congruence.
  - destruct (Z.eq_dec w 0) as [->|]; [|lia]. cbn in Hb. assert (b = 0) by lia. congruence.
Qed.
Lemma read_le_range w n : 0 <= w -> forall sh acc s, 0 <= acc < 2 ^ w -> 0 <= fst (read_le w n sh acc s) < 2 ^ w.
Proof.
  intros Hw. induction n as [|n IH]; intros sh acc s Ha; cbn [read_le]; [exact Ha|]. destruct (sget s) as [x s1].
  apply IH. apply lor_range; auto. apply Z.mod_pos_bound. apply Z.pow_pos_nonneg; lia.
Qed.
Lemma gives_rd32 : gives rd32 (fun x => 0 <= x < 2 ^ 64).
Proof.
  intros s a s' H. unfold rd32, of_fun, read32 in H. pose proof (read_le_range 32 4 ltac:(lia) 0 0 s ltac:(lia)) as HR.
  destruct (read_le 32 4 0 0 s). injection H as <- _. cbn [fst] in HR. lia.
Qed.
Lemma gives_rd64 : gives rd64 (fun x => 0 <= x < 2 ^ 64).
Proof.
  intros s a s' H. unfold rd64, of_fun, read64 in H. pose proof (read_le_range 64 8 ltac:(lia) 0 0 s ltac:(lia)) as HR.
  destruct (read_le 64 8 0 0 s). injection H as <- _. exact HR.
Qed.
Lemma cd_offset_range s e s' : read_cd_header s = (Ok e, s') -> 0 <= f_offset e < 2 ^ 64.
Proof.
  assert (gives read_cd_header (fun e => 0 <= f_offset e < 2 ^ 64)) as H; [|apply H].
  unfold read_cd_header. eapply gives_bind; [apply gives_any|intros ? _].
  eapply gives_bind; [apply gives_any|intros ? _]. eapply gives_bind; [apply gives_any|intros ver _].
  destruct (_ >? _); [apply gives_lift; discriminate|]. eapply gives_bind; [apply gives_any|intros [[[[m c] cs] us] nl] _].
  do 5 (eapply gives_bind; [apply gives_any|intros ? _]). eapply gives_bind; [apply gives_rd32|intros off Hoff].
  eapply gives_bind; [apply gives_any|intros nm _]. cbv zeta.
  destruct (_ >? _); [|apply gives_ret; exact Hoff].
  unfold read_zip64_extra. eapply gives_bind; [apply gives_any|intros tag _]. destruct (negb _); [apply gives_lift; discriminate|].
  eapply gives_bind; [apply gives_any|intros actual _].
  eapply gives_bind; [apply gives_any|intros x1 _]. eapply gives_bind; [apply gives_any|intros x2 _].
  eapply (gives_bind _ _ (fun x => 0 <= fst x < 2 ^ 64)).
  - destruct (_ && _); [eapply gives_bind; [apply gives_rd64|intros o Ho; apply gives_ret; exact Ho]|apply gives_ret; exact Hoff].
  - intros x3 H3. cbv zeta. destruct (_ <? _); [apply gives_lift; discriminate|]. destruct (_ >? _).
    + intros sx ax sy HX. injection HX as <- _. exact H3.
    + apply gives_ret. exact H3.
Qed.

(** Everything in an opened reader's directory is a directory record of the bytes. *)
Lemma loop_records a n : forall mp ks s mp' ks' s', whole s = a -> sane s ->
  Forall (fun p => directory_record a (snd p) /\ fst p = f_name (snd p)) mp ->
  read_cd_loop n mp ks s = (Ok (mp', ks'), s') -> Forall (fun p => directory_record a (snd p) /\ fst p = f_name (snd p)) mp'.
Proof.
  induction n as [|n IH]; intros mp ks s mp' ks' s' HW HS HF H; cbn [read_cd_loop] in H.
  - unfold ret in H. now injection H as -> _ _.
  - apply bind_ok_inv in H as (e & s1 & H1 & H2). pose proof (keeps_cd s) as (E1 & _ & E3 & _). rewrite H1 in E1, E3. cbn [snd] in *.
    eapply IH; [| | |exact H2]; [congruence|auto|]. constructor; [|exact HF]. cbn [fst snd]. split; [|reflexivity].
    destruct (sane_good_at s HS (cd_ok_good _ _ _ H1)) as (off & H0 & Hs). exists off, (is_file s), s1. split; [exact H0|].
    rewrite <- HW, <- Hs. exact H1.
Qed.
Lemma open_reader_facts s r : sane s -> open_reader s = Ok r ->
  Forall (fun p => directory_record (whole s) (snd p) /\ fst p = f_name (snd p)) (r_entries r) /\
  whole (r_in r) = whole s /\ sane (r_in r) /\
  exists t, zdrop (len (whole s) - 22) (whole s) = CD_END_SIG ++ t /\ 22 <= len (whole s).
Proof.
  intros HS H. unfold open_reader in H. destruct (read_entries s) as [[[mp ks]|?| |?] s'] eqn:E; try discriminate.
  injection H as <-. cbn [r_entries r_in]. unfold read_entries in E.
  apply bind_ok_inv in E as ([] & s1 & E1 & E). injection E1 as E1.
  apply bind_ok_inv in E as ([[n z] off] & s2 & E2 & E).
  apply bind_ok_inv in E as ([] & s3 & E3 & E). injection E3 as E3.
  apply bind_ok_inv in E as ([mp0 ks0] & s4 & E4 & E). unfold ret in E. cbn [fst snd] in E. injection E as <- _ <-.
  pose proof (seek_keeps (len (whole s) + - CD_END_SIZE) s) as (K1 & _ & K3 & _). change (sseek_abs (len (whole s) + - CD_END_SIZE) s = s1) in E1. rewrite E1 in K1, K3.
  pose proof (keeps_eocd s1) as (L1 & _ & L3 & _). rewrite E2 in L1, L3. cbn [snd] in *.
  pose proof (seek_keeps off s2) as (M1 & _ & M3 & _). rewrite E3 in M1, M3.
  pose proof (keeps_loop (Z.to_nat n) [] [] s3) as (N1 & _ & N3 & _). rewrite E4 in N1, N3. cbn [snd] in *.
  split; [|split; [congruence|split; [auto|]]].
  - eapply loop_records; [| | |exact E4]; [congruence|auto|constructor].
  - unfold read_eocd in E2. apply bind_ok_inv in E2 as ([] & s5 & E5 & _). apply assert_sig_ok in E5 as (G & t & HT & _).
    unfold sseek_abs in E1. destruct (failb s) eqn:F.
    { subst s1. unfold good in G. cbn in G. discriminate. }
    destruct (_ || _) eqn:EO in E1.
    { subst s1. rewrite good_set_fail in G. discriminate. }
    subst s1. cbn [rest set_rest] in HT. exists t. split; [|unfold CD_END_SIZE in *; lia].
    rewrite <- HT. f_equal.
Qed.
Lemma opened_facts a r : opened a r ->
  Forall (fun p => directory_record a (snd p) /\ fst p = f_name (snd p)) (r_entries r) /\
  whole (r_in r) = a /\ sane (r_in r) /\ exists t, zdrop (len a - 22) a = CD_END_SIG ++ t /\ 22 <= len a.
Proof.
  intros [H|H].
  - apply (open_reader_facts (open_str a)); [exists 0; split; [lia|symmetry; now apply zdrop_0]|exact H].
  - apply (open_reader_facts (open_file a)); [exists 0; split; [lia|symmetry; now apply zdrop_0]|exact H].
Qed.
Lemma after_facts v c r r' : reader_after v c r r' ->
  r_entries r' = r_entries r /\ whole (r_in r') = whole (r_in r) /\ (sane (r_in r) -> sane (r_in r')) /\
  (failb (r_in r) = true -> failb (r_in r') = true) /\ is_file (r_in r') = is_file (r_in r).
Proof.
  assert (forall r n, r_entries (snd (r_read_file v c r n)) = r_entries r /\ whole (r_in (snd (r_read_file v c r n))) = whole (r_in r) /\
    (sane (r_in r) -> sane (r_in (snd (r_read_file v c r n)))) /\ (failb (r_in r) = true -> failb (r_in (snd (r_read_file v c r n))) = true) /\
    is_file (r_in (snd (r_read_file v c r n))) = is_file (r_in r)) as H.
  { intros r0 n. unfold r_read_file. pose proof (keeps_file v c (r_entries r0) n (r_in r0)) as (E1 & E2 & E3 & E4).
    destruct (read_file v c (r_entries r0) n (r_in r0)) as [o s]. cbn in *. auto. }
  induction 1 as [|r' d n g HA IH|r' n g HA IH]; [auto|rewrite r_read_reader|rewrite r_peek_reader];
    destruct IH as (I1 & I2 & I3 & I4 & I5), (H r' n) as (H1 & H2 & H3 & H4 & H5); repeat split; try congruence; auto.
Qed.
Lemma efind_in mp n e : efind mp n = Some e -> In (n, e) mp.
Proof.
  induction mp as [|[k x] mp IH]; [discriminate|]. cbn [efind]. destruct (beq n k) eqn:E; [|intros; right; auto].
  intros [= ->]. apply beq_eq in E. subst. now left.
Qed.
Lemma find_named a mp n e : Forall (fun p => directory_record a (snd p) /\ fst p = f_name (snd p)) mp ->
  find_entry mp n = Some e -> directory_record a e /\ (f_name e = n \/ f_name e = n ++ str ".npy").
Proof.
  intros HF H. unfold find_entry in H. destruct (efind mp n) as [x|] eqn:E.
  - injection H as ->. apply efind_in in E. eapply Forall_forall in HF; [|exact E]. cbn in HF. destruct HF as [H1 H2]. auto.
  - apply efind_in in H. eapply Forall_forall in HF; [|exact H]. cbn in HF. destruct HF as [H1 H2]. auto.
Qed.
Lemma seek_ok_inv p s : good (sseek_abs p s) = true -> 0 <= p /\ sseek_abs p s = at_pos (whole s) p (is_file s).
Proof.
  unfold sseek_abs. destruct (failb s) eqn:F; [intros G; unfold good in G; cbn in G; discriminate|].
  destruct (_ || _) eqn:EO; [rewrite good_set_fail; discriminate|].
  intros _. split; [lia|reflexivity].
Qed.

(** *** C41 *)
Theorem C41_returned_data_was_checked : forall v c a r r' n b r2,
  opened a r -> reader_after v c r r' -> r_read_file v c r' n = (Ok b, r2) ->
  exists e l s, directory_record a e /\ (f_name e = n \/ f_name e = n ++ str ".npy") /\
    local_header_at (is_file (r_in r)) a (f_offset e) l s /\
    (f_name l, f_crc l, f_method l, f_csize l, f_usize l) = (f_name e, f_crc e, f_method e, f_csize e, f_usize e) /\
    npy_crc32 b = f_crc e /\
    exists raw, fst (read_name (f_csize e) s) = Ok raw /\ (if f_method e =? DEFLATED then c_inflate c raw = Ok b else raw = b).
Proof.
  intros v c a r r' n b r2 Hop Haf H. destruct (opened_facts a r Hop) as (HD & HW & HS & _).
  destruct (after_facts v c r r' Haf) as (E1 & E2 & E3 & _ & E5).
  unfold r_read_file in H. destruct (read_file v c (r_entries r') n (r_in r')) as [o s0] eqn:ER. injection H as -> _.
  rewrite E1 in ER. unfold read_file in ER. destruct (find_entry (r_entries r) n) as [e|] eqn:EF; [|discriminate].
  destruct (find_named a _ _ _ HD EF) as [HD' HN].
  apply bind_ok_inv in ER as ([] & s1 & Hs & ER). injection Hs as Hs.
  apply bind_ok_inv in ER as (l & s2 & HL & ER).
  pose proof (local_ok_good _ _ _ HL) as G. rewrite <- Hs in G. destruct (seek_ok_inv _ _ G) as [Hp Hat].
  assert (s64 (f_offset e) = f_offset e) as HO.
  { unfold s64 in *. destruct (f_offset e <? 9223372036854775808) eqn:E; [reflexivity|].
    exfalso. destruct HD' as (off & fl & s' & _ & HCD).
    assert (f_offset e < 18446744073709551616) as HB; [|lia].
    exact (proj2 (cd_offset_range _ _ _ HCD)). }
  exists e, l, s2. split; [exact HD'|]. split; [exact HN|]. split.
  { unfold local_header_at. rewrite <- HW, <- E2, <- E5, <- HO, <- Hat, Hs. exact HL. }
  destruct (entry_check e l) eqn:EC; cbn [negb] in ER; [|discriminate].
  unfold entry_check in EC. repeat rewrite andb_true_iff in EC. destruct EC as ((((C1 & C2) & C3) & C4) & C5).
  apply beq_eq in C1. apply Z.eqb_eq in C2, C3, C4, C5. split; [congruence|].
  destruct (f_csize e >? mem v); [discriminate|].
  apply bind_ok_inv in ER as (raw & s3 & HRn & ER). apply bind_ok_inv in ER as (b0 & s4 & Hb & ER).
  destruct (npy_crc32 b0 =? f_crc e) eqn:ECr; [|discriminate]. unfold ret in ER. injection ER as -> _.
  split; [now apply Z.eqb_eq|]. exists raw. rewrite HRn. split; [reflexivity|].
  destruct (f_method e =? DEFLATED); unfold lift, ret in Hb; now injection Hb.
Qed.
Print Assumptions C41_returned_data_was_checked.
(** The same for tensors: what was decoded had the recorded checksum. *)
Theorem C41_returned_tensor_was_checked : forall v c d a r r' n g t r2 g2,
  opened a r -> reader_after v c r r' -> r_read v c d r' n g = (Ok t, r2, g2) ->
  exists e b, directory_record a e /\ (f_name e = n \/ f_name e = n ++ str ".npy") /\
    npy_crc32 b = f_crc e /\ fst (fst (load v d (open_str b) g)) = Ok t /\
    exists l s, local_header_at (is_file (r_in r)) a (f_offset e) l s /\
    (f_name l, f_crc l, f_method l, f_csize l, f_usize l) = (f_name e, f_crc e, f_method e, f_csize e, f_usize e).
Proof.
  intros v c d a r r' n g t r2 g2 Hop Haf H. unfold r_read in H.
  destruct (r_read_file v c r' n) as [[b|?| |?] r3] eqn:E; try discriminate.
  destruct (C41_returned_data_was_checked v c a r r' n b r3 Hop Haf E) as (e & l & s & H1 & H2 & H3 & H4 & H5 & _).
  exists e, b. split; [exact H1|]. split; [exact H2|]. split; [exact H5|]. split; [|eauto].
  destruct (load v d (open_str b) g) as [[o s'] g']. cbn. congruence.
Qed.
Print Assumptions C41_returned_tensor_was_checked.

(** *** C45 *)
Theorem C45_end_signature_needed : forall a r, opened a r ->
  exists pre fields, a = pre ++ [80; 75; 5; 6] ++ fields /\ len fields = 18.
Proof.
  intros a r H. destruct (opened_facts a r H) as (_ & _ & _ & t & HT & HL).
  exists (ztake (len a - 22) a), t. split.
  - change [80; 75; 5; 6] with CD_END_SIG. rewrite <- HT. symmetry. apply ztake_zdrop.
  - apply (f_equal (@len Z)) in HT. rewrite len_zdrop, len_app in HT. change (len CD_END_SIG) with 4 in HT. lia.
Qed.
Print Assumptions C45_end_signature_needed.
(** So bytes left by a crash at any point of any history open only if they contain
    that signature 22 bytes before their end. *)
Theorem C45_interrupted_archive : forall v c w ops k r,
  let a := ztake k (w_str (snd (history v c w ops))) in
  (forall pre fields, len fields = 18 -> a <> pre ++ [80; 75; 5; 6] ++ fields) -> ~ opened a r.
Proof.
  intros v c w ops k r a H Hop. destruct (C45_end_signature_needed a r Hop) as (pre & f & HA & HL). exact (H pre f HL HA).
Qed.
Print Assumptions C45_interrupted_archive.
Definition u8_tensor (l : list Z) : tensor := mk_tensor [len l] [1] false UINT8 (map Scalar l).
Lemma u8_tensor_api l : len l < 2 ^ 63 -> bytes_ok l -> api_tensor (u8_tensor l).
Proof.
  intros HL Hb. pose proof (len_nonneg _ l) as H0.
  set (t := mk_tensor [len l] [1] false UINT8 (zrepeat (Scalar 0) (len l))).
  assert (make_tensor (mk_env false true (len l)) UINT8 [len l] false = Ok t) as E.
  { unfold make_tensor, get_size. cbn [fold_left]. rewrite (u64_id (1 * len l)) by lia.
    cbn [item_size]. cbn [mem]. destruct (_ >? _) eqn:EG; [lia|]. unfold t. rewrite !Z.mul_1_l. reflexivity. }
  replace (u8_tensor l) with (snd (move_from t (map Scalar l))).
  - apply by_move; [eapply by_ctor; [|exact E]; repeat constructor; unfold max64; lia|].
    cbn [t_dtype t]. unfold values_ok. apply Forall_forall. intros x Hx. apply in_map_iff in Hx as (z & <- & Hz).
    eapply Forall_forall in Hb; [|exact Hz]. cbn. unfold is_byte in Hb. split; [discriminate|]. split; [discriminate|].
    split; [discriminate|]. unfold fits. cbn. lia.
  - unfold move_from, t_size. cbn [t_values t]. rewrite len_map, len_zrepeat.
    destruct (_ =? _) eqn:EE; [reflexivity|lia].
Qed.
(** A tensor whose data is an end record: the unclosed archive opens, as an empty one,
    although the tensor in it was written. *)
Definition trap : tensor := u8_tensor [80; 75; 5; 6; 0; 0; 0; 0; 0; 0; 0; 0; 0; 0; 0; 0; 0; 0; 0; 0; 0; 0].
Theorem C45_crafted_tensor_opens : api_tensor trap /\
  exists w r, w_write case_env (mk_codec Ok Ok) (new_writer STORED LITTLE) (str "x") trap = Ok w /\
    w_closed w = false /\ opened (w_str w) r /\ r_keys r = [].
Proof.
  split. { apply u8_tensor_api; [reflexivity|]. apply is_byteb_ok. reflexivity. }
  destruct (w_write case_env (mk_codec Ok Ok) (new_writer STORED LITTLE) (str "x") trap) as [w| | |] eqn:E;
    try (vm_compute in E; discriminate).
  destruct (new_string_reader (w_str w)) as [r| | |] eqn:ER; try (vm_compute in E; injection E as <-; vm_compute in ER; discriminate).
  exists w, r. split; [reflexivity|]. split; [vm_compute in E; injection E as <-; reflexivity|]. split; [left; exact ER|].
  vm_compute in E. injection E as <-. vm_compute in ER. injection ER as <-. reflexivity.
Qed.
Print Assumptions C45_crafted_tensor_opens.

(** *** C46 *)
Lemma dead_read v c r n b r' : failb (r_in r) = true -> r_read_file v c r n <> (Ok b, r').
Proof.
  intros F H. unfold r_read_file in H. destruct (read_file v c (r_entries r) n (r_in r)) as [o s0] eqn:ER. injection H as -> _.
  unfold read_file in ER. destruct (find_entry (r_entries r) n) as [e|]; [|discriminate].
  apply bind_ok_inv in ER as ([] & s1 & Hs & ER). injection Hs as Hs.
  apply bind_ok_inv in ER as (l & s2 & HL & ER). apply local_ok_good in HL. rewrite <- Hs in HL.
  unfold sseek_abs in HL. rewrite F in HL. unfold good in HL. cbn in HL. discriminate.
Qed.
(** [n] names an entry whose local header is in order but whose recorded data runs
    past the end of the archive. *)
Definition runs_past_end (v : env) (a : bytes) (r : reader) (n : bytes) : Prop :=
  exists e l s, find_entry (r_entries r) n = Some e /\ local_header_at (is_file (r_in r)) a (f_offset e) l s /\ f_offset e < 2 ^ 63 /\
    (f_name l, f_crc l, f_method l, f_csize l, f_usize l) = (f_name e, f_crc e, f_method e, f_csize e, f_usize e) /\
    len (rest s) < f_csize e <= mem v.
Lemma short_read_fails n s : len (rest s) < n -> failb (snd (read_name n s)) = true.
Proof.
  intros H. unfold read_name, sread. destruct (good s); [|reflexivity]. cbv zeta.
  rewrite ztake_all by lia. destruct (len (rest s) <? n) eqn:E; [reflexivity|lia].
Qed.
Theorem C46_short_read_poisons : forall v c a r r1 n r2,
  opened a r -> reader_after v c r r1 -> runs_past_end v a r n ->
  reader_after v c (snd (r_read_file v c r1 n)) r2 ->
  forall k d g t, fst (fst (r_read v c d r2 k g)) <> Ok t.
Proof.
  intros v c a r r1 n r2 Hop H1 HP H2 k d g t.
  destruct (opened_facts a r Hop) as (HD & HW & HS & _).
  destruct (after_facts v c r r1 H1) as (E1 & E2 & E3 & E4 & E5).
  assert (failb (r_in (snd (r_read_file v c r1 n))) = true) as HF.
  { destruct (failb (r_in r1)) eqn:F.
    - unfold r_read_file. pose proof (keeps_file v c (r_entries r1) n (r_in r1)) as (_ & _ & _ & K).
      destruct (read_file v c (r_entries r1) n (r_in r1)). cbn in *. auto.
    - destruct HP as (e & l & s & EF & HL & HO & HE & HC). unfold local_header_at in HL.
      pose proof (local_ok_good _ _ _ HL) as HG.
      assert (0 <= f_offset e) as HO0.
      { unfold find_entry in EF.
        assert (forall m, efind (r_entries r) m = Some e -> 0 <= f_offset e) as HX.
        { intros m Hm. apply efind_in in Hm. eapply Forall_forall in HD; [|exact Hm]. destruct HD as ((off & fl & s' & _ & HD) & _).
          now apply cd_offset_range in HD. }
        destruct (efind (r_entries r) n) eqn:E; [injection EF as <-|]; eauto. }
      unfold r_read_file, read_file. rewrite E1, EF.
      assert (sseek_abs (s64 (f_offset e)) (r_in r1) = at_pos a (f_offset e) (is_file (r_in r))) as HSk.
      { assert (s64 (f_offset e) = f_offset e) as -> by (unfold s64; destruct (_ <? _) eqn:E; [reflexivity|lia]).
        unfold sseek_abs. rewrite F, E2, HW, E5. 
        destruct (_ || _) eqn:EO; [|reflexivity]. exfalso.
        apply orb_true_iff in EO as [EO|EO]; [lia|]. apply andb_true_iff in EO as [_ EO].
        assert (rest (at_pos a (f_offset e) (is_file (r_in r))) = []) as HR by (cbn [at_pos rest]; apply zdrop_all; lia).
        unfold read_local_header in HL. apply bind_ok_inv in HL as ([] & s1 & HL & _).
        apply assert_sig_ok in HL as (_ & t0 & HT & HT2). rewrite HR in HT. discriminate. }
      unfold bind at 1. rewrite HSk. unfold bind at 1. rewrite HL.
      injection HE as N1 N2 N3 N4 N5.
      assert (entry_check e l = true) as ->.
      { unfold entry_check. rewrite N1, N2, N3, N4, N5. now rewrite beq_refl, !Z.eqb_refl. }
      cbn [negb]. destruct (f_csize e >? mem v) eqn:EM; [lia|].
      pose proof (short_read_fails (f_csize e) s (proj1 HC)) as HSF. unfold bind at 1.
      destruct (read_name (f_csize e) s) as [[raw|?| |?] s3]; cbn [snd] in *; auto.
      unfold bind. destruct (f_method e =? DEFLATED); unfold lift, ret;
        [destruct (c_inflate c raw) as [b|?| |?]; try exact HSF|]; destruct (_ =? _); exact HSF. }
  pose proof (proj1 (proj2 (proj2 (proj2 (after_facts v c _ _ H2)))) HF) as HF2.
  unfold r_read. destruct (r_read_file v c r2 k) as [[b|?| |?] r3] eqn:E; try discriminate.
  exfalso. exact (dead_read v c r2 k b r3 HF2 E).
Qed.
Print Assumptions C46_short_read_poisons.
(** An archive of two intact entries whose second records 1000 bytes of data: the
    first can be read until the second has been tried. *)
Definition poison_archive : bytes :=
  let file := match save case_env case_tensor LITTLE with Ok b => b | _ => [] end in
  let e1 := mk_entry (str "a.npy") (npy_crc32 file) (len file) (len file) STORED 0 in
  let b1 := write_local_header e1 false ++ file in
  let e2 := mk_entry (str "b.npy") (npy_crc32 file) 1000 1000 STORED (len b1) in
  let b2 := b1 ++ write_local_header e2 false ++ file in
  let cd := write_cd_header e1 ++ write_cd_header e2 in
  b2 ++ cd ++ write_eocd 2 (len cd) (len b2).
Example C46_case : exists r, opened poison_archive r /\ runs_past_end case_env poison_archive r (str "b") /\
  let c := mk_codec Ok Ok in
  let g := (zrepeat 0 65536, DTYPE_MAP) in
  fst (fst (r_read case_env c UNICODE_STRING r (str "a") g)) = Ok case_tensor /\
  let r1 := snd (fst (r_read case_env c UNICODE_STRING r (str "b") g)) in
  fst (fst (r_read case_env c UNICODE_STRING r (str "b") g)) = Throw RuntimeError /\
  fst (fst (r_read case_env c UNICODE_STRING r1 (str "a") g)) = Undef UninitRead.
Proof.
  destruct (new_string_reader poison_archive) as [r| | |] eqn:E; try (vm_compute in E; discriminate).
  exists r. split; [left; exact E|]. vm_compute in E. injection E as <-. split.
  - eexists. eexists. eexists. split; [vm_compute; reflexivity|]. split; [vm_compute; reflexivity|].
    split; [vm_compute; reflexivity|]. split; [vm_compute; reflexivity|]. vm_compute. split; [reflexivity|discriminate].
  - cbv zeta. split; [vm_compute; reflexivity|]. split; vm_compute; reflexivity.
Qed.

(** *** C42 *)
Lemma write32u_le x : write32u x = le32 x. Proof. apply put_le_bytes. Qed.
Lemma write32_le x : 0 <= x <= ZIP64_LIMIT -> write32 x = le32 x.
Proof.
  intros H. unfold write32. destruct (x >? ZIP64_LIMIT) eqn:E; [lia|]. unfold u32.
  rewrite Z.mod_small by (unfold ZIP64_LIMIT in H; lia). apply write32u_le.
Qed.
Lemma write16_le x : 0 <= x < 65536 -> write16 x = le16 x.
Proof. intros H. rewrite write16_put by exact H. apply put_le_bytes. Qed.
Definition member_of (p : placement) : member :=
  mk_member (f_name (fst p)) (f_method (fst p)) (f_crc (fst p)) (snd (snd p)) (f_usize (fst p)).
Lemma shared_fields e cb b : entry_ok e -> f_csize e = len cb -> f_csize e <= ZIP64_LIMIT -> f_usize e <= ZIP64_LIMIT ->
  write_shared_header e ++ write16 0 = member_fields (member_of (e, (b, cb))).
Proof.
  intros HO HC H1 H2. unfold entry_ok in HO. destruct HO as (O1 & O2 & O3 & O4 & O5 & O6).
  unfold write_shared_header, member_fields, member_of. cbn [m_name m_compression m_crc m_data m_size fst snd].
  pose proof (len_nonneg _ (f_name e)) as HN.
  assert (u16 (len (f_name e)) = len (f_name e)) as -> by (unfold u16; apply Z.mod_small; lia).
  rewrite (write32_le (f_csize e)), (write32_le (f_usize e)), write32u_le, !write16_le, HC by lia.
  rewrite <- !app_assoc. reflexivity.
Qed.
Lemma no_extra_small e io : f_csize e <= ZIP64_LIMIT -> f_usize e <= ZIP64_LIMIT -> f_offset e <= ZIP64_LIMIT ->
  determine_extra_length e io = 0.
Proof.
  intros H1 H2 H3. unfold determine_extra_length.
  assert (f_csize e >? ZIP64_LIMIT = false) as -> by lia. assert (f_usize e >? ZIP64_LIMIT = false) as -> by lia.
  assert (f_offset e >? ZIP64_LIMIT = false) as -> by lia. now rewrite andb_false_r.
Qed.
Lemma block_local e cb b : entry_ok e -> f_csize e = len cb -> f_csize e <= ZIP64_LIMIT -> f_usize e <= ZIP64_LIMIT ->
  f_offset e <= ZIP64_LIMIT -> block e cb = local_part (member_of (e, (b, cb))).
Proof.
  intros HO HC H1 H2 H3. unfold block, write_local_header. rewrite no_extra_small by assumption.
  assert ((f_usize e >? ZIP64_LIMIT) || (f_csize e >? ZIP64_LIMIT) = false) as -> by (apply orb_false_iff; lia).
  cbn [Z.gtb Z.compare]. rewrite app_nil_r. unfold local_part.
  change LOCAL_HEADER_SIG with (le32 0x04034b50). rewrite <- (shared_fields e cb b) by assumption.
  rewrite (write16_le STANDARD_VERSION) by (unfold STANDARD_VERSION; lia). rewrite <- !app_assoc. reflexivity.
Qed.
Lemma cd_central e cb b : entry_ok e -> f_csize e = len cb -> f_csize e <= ZIP64_LIMIT -> f_usize e <= ZIP64_LIMIT ->
  f_offset e <= ZIP64_LIMIT -> write_cd_header e = central_part (f_offset e) (member_of (e, (b, cb))).
Proof.
  intros HO HC H1 H2 H3. unfold write_cd_header. rewrite no_extra_small by assumption.
  cbn [Z.gtb Z.compare]. rewrite app_nil_r. unfold central_part.
  change CD_HEADER_SIG with (le32 0x02014b50). rewrite <- (shared_fields e cb b) by assumption.
  assert (0 <= f_offset e) by apply HO.
  rewrite (write32_le (f_offset e)) by lia.
  rewrite (write16_le STANDARD_VERSION) by (unfold STANDARD_VERSION; lia). rewrite <- !app_assoc. reflexivity.
Qed.
Lemma laid_zip c m off items ps : laid c m off items ps -> Forall (fun p => len (snd p) <= ZIP64_LIMIT) items ->
  off + len (blocks ps) <= ZIP64_LIMIT ->
  blocks ps = flat_map local_part (map member_of ps) /\ flat_map write_cd_header (dir ps) = central_parts off (map member_of ps).
Proof.
  induction 1 as [|off n b cb r ps HS HB H1 H2 H3 H4 HL IH]; intros HF HT; [split; reflexivity|].
  inversion HF as [|? ? Hb HF']; subst. cbn [snd] in Hb. cbn [blocks flat_map fst snd] in HT. fold (blocks ps) in HT.
  set (e := entry_for m n b cb off) in *.
  assert (entry_ok e) as HO by (apply entry_for_ok; auto; eapply stored_method; eauto).
  rewrite len_app in HT. pose proof (len_nonneg _ (blocks ps)) as HB0.
  assert (len cb <= len (block e cb)) as HBl by (unfold block; rewrite len_app; pose proof (len_nonneg _ (write_local_header e ((f_usize e >? ZIP64_LIMIT) || (f_csize e >? ZIP64_LIMIT)))); lia).
  destruct IH as [IH1 IH2]; [assumption|lia|].
  assert (f_csize e <= ZIP64_LIMIT) as L1 by (change (len cb <= ZIP64_LIMIT); lia).
  assert (f_usize e <= ZIP64_LIMIT) as L2 by exact Hb.
  assert (f_offset e <= ZIP64_LIMIT) as L3 by (change (off <= ZIP64_LIMIT); pose proof (len_nonneg _ (block e cb)); lia).
  assert (block e cb = local_part (member_of (e, (b, cb)))) as HBk by (apply block_local; [exact HO|reflexivity|exact L1|exact L2|exact L3]).
  split.
  - cbn [blocks flat_map map fst snd]. rewrite HBk at 1. f_equal. exact IH1.
  - cbn [dir map flat_map fst central_parts]. rewrite <- HBk. unfold dir in IH2. rewrite IH2. f_equal.
    now rewrite (cd_central e cb b HO eq_refl L1 L2 L3).
Qed.
(** The member an item should become. *)
Definition member_for (v : env) (c : codec) (m : Z) (e : endian) (p : bytes * tensor) (x : member) : Prop :=
  exists file, save v (snd p) e = Ok file /\
    m_name x = npy_name (fst p) /\ m_compression x = m /\ m_crc x = crc32_standard file /\ m_size x = len file /\
    (if m =? 0 then m_data x = file else c_deflate c file = Ok (m_data x)).
Theorem C42_archives_are_zip_files : forall v c m e items a,
  archive v c m e items a -> len a <= 0x8FFFFFFF ->
  (forall n t b, In (n, t) items -> save v t e = Ok b -> len b <= 0x8FFFFFFF) ->
  exists ms, a = zip_archive ms /\ Forall2 (member_for v c m e) items ms.
Proof.
  intros v c m e items a HA HL HF. destruct (archive_ps _ _ _ _ _ _ HA) as (ps & HP & HAr & _).
  destruct HA as (Hm & HSt & _ & HN & _ & _).
  assert (len (blocks ps) <= ZIP64_LIMIT) as HBl.
  { rewrite HAr in HL. unfold archive_of in HL. rewrite !len_app in HL.
    repeat match type of HL with context [len ?x] => lazymatch goal with _ : 0 <= len x |- _ => fail | _ => pose proof (len_nonneg _ x) end end.
    unfold ZIP64_LIMIT. rewrite len_eocd in HL. lia. }
  destruct (laid_zip _ _ _ _ _ HP) as [H1 H2]; [|lia|].
  { unfold files. apply Forall_forall. intros x Hx. apply in_map_iff in Hx as ([n t] & <- & Hin). cbn [snd].
    eapply HF; [exact Hin|apply file_of_save]. }
  exists (map member_of ps). split.
  - rewrite HAr. unfold archive_of, zip_archive. rewrite H2, <- H1. f_equal. f_equal.
    unfold write_eocd, end_part. rewrite !write32u_le.
    assert (len ps = len items) as HPL by (rewrite (laid_len _ _ _ _ _ HP); unfold files, len; now rewrite map_length).
    pose proof (len_nonneg _ items). rewrite (Z.mod_small (len ps)) by lia.
    replace (len (map member_of ps)) with (len ps) by (unfold len; now rewrite map_length).
    rewrite !(write16_le (len ps)) by lia. rewrite !(write16_le 0) by lia. reflexivity.
  - clear -HP Hm HSt. unfold files in HP. remember 0 as off eqn:E0. clear E0. revert off ps HP.
    induction items as [|[n t] items IH]; intros off ps HP; inversion HP; subst; cbn [map]; constructor.
    + exists (file_of v e t). split; [apply file_of_save|]. cbn [member_of entry_for fst snd m_name m_compression m_crc m_size m_data f_name f_method f_crc f_usize].
      repeat split; auto.
      * apply C32_crc_is_standard; assumption.
      * match goal with H : stored_as _ _ _ _ |- _ => destruct H as [[-> ->]|[-> HD]] end; [reflexivity|exact HD].
    + inversion HSt; subst. eapply IH; eauto.
Qed.
Print Assumptions C42_archives_are_zip_files.
Example C42_case : exists a, archive case_env (mk_codec Ok Ok) DEFLATED BIG case_items a /\ len a <= 0x8FFFFFFF /\
  (forall n t b, In (n, t) case_items -> save case_env t BIG = Ok b -> len b <= 0x8FFFFFFF).
Proof.
  destruct archive_case as (a & HA). exists a. split; [exact HA|]. split.
  - destruct HA as (_ & _ & _ & _ & _ & w0 & w & Hw & HW & ->). apply fresh_new in Hw. subst w0.
    vm_compute in HW. injection HW as <-. vm_compute. discriminate.
  - assert (forall t, In t (map snd case_items) -> t = case_tensor) as H by (cbn; intuition).
    intros n t b Hin Hb. apply (in_map snd) in Hin. apply H in Hin. cbn [snd] in Hin. subst. vm_compute in Hb. injection Hb as <-. vm_compute. discriminate.
Qed.

(** *** C43.  Offset 28 of a local header and 30 of a directory header hold the extra
    field length; the name and the extra field end the header. *)
Theorem C43_extra_length_four_short : forall e zip64, entry_ok e ->
  (f_csize e > 0x8FFFFFFF \/ f_usize e > 0x8FFFFFFF ->
   exists fixed recorded extra,
     write_local_header e zip64 = fixed ++ le16 recorded ++ f_name e ++ extra /\
     len fixed = 28 /\ len extra = recorded + 4 /\ 8 <= recorded < 65536) /\
  (f_csize e > 0x8FFFFFFF \/ f_usize e > 0x8FFFFFFF \/ f_offset e > 0x8FFFFFFF ->
   exists fixed recorded attributes extra,
     write_cd_header e = fixed ++ le16 recorded ++ attributes ++ f_name e ++ extra /\
     len fixed = 30 /\ len attributes = 14 /\ len extra = recorded + 4 /\ 8 <= recorded < 65536) /\
  (* libnpy itself reads both headers back *)
  (forall s tail, good s = true -> rest s = write_local_header e zip64 ++ tail ->
     exists l, read_local_header s = (Ok l, set_rest s tail) /\
       (f_name l, f_crc l, f_method l, f_csize l, f_usize l) = (f_name e, f_crc e, f_method e, f_csize e, f_usize e)) /\
  (forall s tail, good s = true -> rest s = write_cd_header e ++ tail -> read_cd_header s = (Ok e, set_rest s tail)).
Proof.
  intros e z HO.
  assert (forall h io, let x := determine_extra_length h io in 0 < x -> len (write_zip64_extra h io) = x + 4) as HX.
  { intros h io x Hx. unfold write_zip64_extra. rewrite !len_app, !len_write16. subst x. unfold determine_extra_length in *.
    destruct (f_usize h >? ZIP64_LIMIT), (f_csize h >? ZIP64_LIMIT), (io && (f_offset h >? ZIP64_LIMIT)); reflexivity || (cbn in Hx; lia). }
  assert (forall h, len (write_shared_header h) = 22) as HSh
    by (intros h; unfold write_shared_header; rewrite !len_app, !len_write32, !len_write16, len_write32u; reflexivity).
  split; [|split; [|split]].
  - intros H. assert (0 < determine_extra_length e false) as HP.
    { unfold determine_extra_length, ZIP64_LIMIT. destruct (f_csize e >? _) eqn:E1, (f_usize e >? _) eqn:E2; cbn; lia. }
    unfold write_local_header. pose proof (extra_range e false) as HR. specialize (HX e false HP).
    set (x := determine_extra_length e false) in *. assert (x >? 0 = true) as -> by lia.
    exists (LOCAL_HEADER_SIG ++ write16 (if z then ZIP64_VERSION else STANDARD_VERSION) ++ write_shared_header e), x, (write_zip64_extra e false).
    split; [rewrite (write16_le x) by lia; rewrite <- !app_assoc; reflexivity|].
    split; [rewrite !len_app, HSh, len_write16; reflexivity|]. split; [exact HX|].
    assert (8 <= x); [|lia]. subst x. unfold determine_extra_length in *.
    destruct (f_csize e >? _), (f_usize e >? _); cbn in *; lia.
  - intros H. assert (0 < determine_extra_length e true) as HP.
    { unfold determine_extra_length, ZIP64_LIMIT. destruct (f_csize e >? _) eqn:E1, (f_usize e >? _) eqn:E2, (f_offset e >? _) eqn:E3; cbn; lia. }
    unfold write_cd_header. pose proof (extra_range e true) as HR. specialize (HX e true HP).
    set (x := determine_extra_length e true) in *. assert (x >? 0 = true) as -> by lia.
    exists (CD_HEADER_SIG ++ write16 STANDARD_VERSION ++ write16 ZIP64_VERSION ++ write_shared_header e), x,
      (write16 0 ++ write16 0 ++ write16 0 ++ EXTERNAL_ATTR ++ write32 (f_offset e)), (write_zip64_extra e true).
    split; [rewrite (write16_le x) by lia; rewrite <- !app_assoc; reflexivity|].
    split; [rewrite !len_app, HSh, !len_write16; reflexivity|].
    split; [rewrite !len_app, !len_write16, len_write32; reflexivity|]. split; [exact HX|].
    assert (8 <= x); [|lia]. subst x. unfold determine_extra_length in *.
    destruct (f_csize e >? _), (f_usize e >? _), (f_offset e >? _); cbn in *; lia.
  - intros s tail G R. exists (forget_offset e). split; [exact (reads_local e z HO s tail G R)|]. reflexivity.
  - intros s tail G R. exact (reads_cd e HO s tail G R).
Qed.
Print Assumptions C43_extra_length_four_short.
(** APPNOTE 4.4.11 and 4.5.3: the recorded length should be the length of the extra
    field, so no entry above the limit conforms. *)
Example C43_case : entry_ok (mk_entry (str "a.npy") 7 0x90000000 0x90000000 0 0) /\
  exists fixed extra, write_local_header (mk_entry (str "a.npy") 7 0x90000000 0x90000000 0 0) true =
    fixed ++ [16; 0] ++ str "a.npy" ++ extra /\ len fixed = 28 /\ len extra = 20.
Proof.
  split; [repeat split; cbn; lia|].
  exists (firstn 28 (write_local_header (mk_entry (str "a.npy") 7 0x90000000 0x90000000 0 0) true)),
    (skipn 35 (write_local_header (mk_entry (str "a.npy") 7 0x90000000 0x90000000 0 0) true)).
  repeat split; vm_compute; reflexivity.
Qed.

(** *** C44 *)
(** An upper bound on the size of a finished archive. *)
Definition w_weight (w : writer) : Z := len (o_bytes (w_out w)) + fold_right (fun e a => 74 + len (f_name e) + a) 0 (w_entries w).
Lemma local_header_bound e z : len (write_local_header e z) <= 50 + len (f_name e).
Proof.
  unfold write_local_header. rewrite !len_app. unfold write_shared_header. rewrite !len_app, !len_write32, !len_write16, len_write32u.
  change (len LOCAL_HEADER_SIG) with 4. change (len TIME) with 4.
  assert (len (if determine_extra_length e false >? 0 then write_zip64_extra e false else []) <= 20); [|lia].
  destruct (_ >? _); [|cbn; lia]. unfold write_zip64_extra. rewrite !len_app, !len_write16. cbn [andb].
  destruct (f_usize e >? _), (f_csize e >? _); cbn; lia.
Qed.
Lemma cd_header_bound e : len (write_cd_header e) <= 74 + len (f_name e).
Proof.
  unfold write_cd_header. rewrite !len_app. unfold write_shared_header. rewrite !len_app, !len_write32, !len_write16, len_write32u.
  change (len CD_HEADER_SIG) with 4. change (len TIME) with 4. change (len EXTERNAL_ATTR) with 4.
  assert (len (if determine_extra_length e true >? 0 then write_zip64_extra e true else []) <= 28); [|lia].
  destruct (_ >? _); [|cbn; lia]. unfold write_zip64_extra. rewrite !len_app, !len_write16.
  destruct (f_usize e >? _), (f_csize e >? _), (true && _); cbn; lia.
Qed.
Lemma weight_write c w n b w' : w_write_file c w n b = Ok w' -> w_method w = STORED ->
  w_weight w' <= w_weight w + 124 + 2 * len n + len b.
Proof.
  intros H Hm. unfold w_write_file, w_write_file_on in H; fold write_file in H. destruct (w_closed w); [discriminate|]. unfold write_file, write_file_on in H. rewrite Hm in H.
  change (STORED =? STORED) with true in H. cbv iota in H. cbn [obind fst snd] in H. injection H as <-.
  unfold w_weight. cbn [w_out w_entries].
  match goal with |- context [write_local_header ?e ?z] => pose proof (local_header_bound e z) as HB; set (hd := write_local_header e z) in * ; set (en := e) in * end.
  rewrite fold_right_app. cbn [fold_right f_name en].
  assert (forall l k, fold_right (fun e a => 74 + len (f_name e) + a) k l = k + fold_right (fun e a => 74 + len (f_name e) + a) 0 l) as HF.
  { induction l as [|x l IH]; intros k; cbn [fold_right]; [lia|]. rewrite (IH k). lia. }
  rewrite (HF (w_entries w)). unfold owrite.
  assert (len (ztake (u32 (len b)) b) <= len b) as HT by (rewrite len_ztake; pose proof (len_nonneg _ b); lia).
  cbn [f_name en] in HB. pose proof (len_nonneg _ hd). pose proof (len_nonneg _ (ztake (u32 (len b)) b)). pose proof (len_nonneg _ n). pose proof (len_nonneg _ b).
  destruct (o_ok (w_out w)) eqn:EO; cbn [o_ok o_bytes]; rewrite ?EO, ?len_app; lia.
Qed.
Lemma weight_close w : len (w_str (w_close w)) <= w_weight w + 22.
Proof.
  assert (0 <= fold_right (fun e a => 74 + len (f_name e) + a) 0 (w_entries w)) as H0.
  { induction (w_entries w) as [|e l IH]; cbn [fold_right]; [lia|]. pose proof (len_nonneg _ (f_name e)). lia. }
  unfold w_str, w_close, w_close_on, w_weight; fold close_archive. destruct (w_closed w); [lia|]. cbn [w_out].
  assert (len (flat_map write_cd_header (w_entries w)) <= fold_right (fun e a => 74 + len (f_name e) + a) 0 (w_entries w)) as HC.
  { clear. induction (w_entries w) as [|e l IH]; cbn [flat_map fold_right]; [cbn; lia|]. rewrite len_app. pose proof (cd_header_bound e). lia. }
  unfold close_archive, close_archive_on, owrite. destruct (o_ok (w_out w)) eqn:EO; cbn [o_ok o_bytes]; rewrite ?EO, ?len_app, ?len_eocd; lia.
Qed.
Lemma weight_all c items : forall w w', put_all c w items = Ok w' -> w_method w = STORED ->
  w_weight w' <= w_weight w + fold_right (fun p a => 124 + 2 * len (fst p) + len (snd p) + a) 0 items.
Proof.
  induction items as [|[n b] l IH]; intros w w' H Hm; cbn [put_all] in H.
  - injection H as <-. cbn. lia.
  - destruct (w_write_file c w n b) as [w1|?| |?] eqn:E; try discriminate. cbn [obind] in H.
    pose proof (weight_write c w n b w1 E Hm) as H1. apply w_write_file_grows in E as (_ & EM & _).
    specialize (IH w1 w' H ltac:(congruence)). cbn [fold_right fst snd]. lia.
Qed.
(** Any number of entries: the directory is read up to the recorded count. *)
Theorem C44_count_wraps : forall v c e items w0 w,
  fresh_writer STORED e w0 -> Forall (storable v e) items -> write_all v c w0 items = Ok w ->
  let a := w_str (w_close w) in len a < 2 ^ 32 ->
  (exists r, new_string_reader a = Ok r) /\ (exists r, new_file_reader (Some a) = Ok r) /\
  forall r, opened a r ->
  Permutation (r_keys r) (firstn (Z.to_nat (len items mod 65536)) (map (fun p => npy_name (fst p)) items)) /\
  (len items mod 65536 = 0 -> r_keys r = [] /\ forall n, r_contains r n = false).
Proof.
  intros v c e items w0 w Hw HSt HW a HL. apply fresh_new in Hw. subst w0.
  rewrite (write_all_put v c items (new_writer STORED e) eq_refl) in HW. cbn [new_writer w_endian] in HW.
  rewrite <- (stub_put c STORED _ (new_writer STORED e) eq_refl) in HW.
  assert (Forall (item_ok (stub c STORED)) (files v e items)) as HI.
  { unfold files. apply Forall_forall. intros x Hx. apply in_map_iff in Hx as (p & <- & Hp).
    eapply Forall_forall in HSt; [|exact Hp]. destruct HSt as (Ht & Hn & Hb). specialize (Hb _ (file_of_save v e (snd p))).
    split; [eapply save_ok; [exact Ht|apply file_of_save]|]. cbn [fst snd]. split; [exact Hb|]. split; [lia|].
    intros cb HC. discriminate. }
  assert (w_closed w = false) as Hcl.
  { assert (forall l w0 w1, w_closed w0 = false -> put_all (stub c STORED) w0 l = Ok w1 -> w_closed w1 = false) as HG.
    { induction l as [|[n0 b0] l IH]; intros w0 w1 H0 H1; cbn [put_all] in H1; [injection H1 as <-; exact H0|].
      destruct (w_write_file (stub c STORED) w0 n0 b0) as [w2|?| |?] eqn:E; try discriminate. cbn [obind] in H1.
      eapply IH; [|exact H1]. now apply w_write_file_grows in E. }
    eapply HG; [|exact HW]. reflexivity. }
  destruct (put_all_laid (stub c STORED) (files v e items) (new_writer STORED e) w eq_refl eq_refl HI HW) as (ps & HP & HWs).
  { pose proof (close_grows w Hcl) as HG. eapply Z.le_lt_trans; [exact HG|exact HL]. }
  cbn [new_writer w_method w_endian w_entries w_out o_bytes app] in HP, HWs. change (len (@nil Z)) with 0 in HP.
  unfold a in *. rewrite HWs in HL |- *. rewrite (close_layout ps STORED e HL) in HL |- *.
  split.
  { destruct (open_archive (blocks ps) ps (open_str (archive_of ps)) (laid_ok _ _ _ _ _ HP) HL eq_refl eq_refl) as (r0 & HR0 & _).
    exists r0. exact HR0. }
  split.
  { destruct (open_archive (blocks ps) ps (open_file (archive_of ps)) (laid_ok _ _ _ _ _ HP) HL eq_refl eq_refl) as (r0 & HR0 & _).
    exists r0. exact HR0. }
  intros r Hop. apply open_opened in Hop as (s & F & Ws & HR).
  destruct (open_archive (blocks ps) ps s (laid_ok _ _ _ _ _ HP) HL F Ws) as (r0 & HR0 & (E1 & E2) & _).
  rewrite HR in HR0. injection HR0 as <-. cbv zeta in E1, E2.
  assert (len ps = len items) as HPL by (rewrite (laid_len _ _ _ _ _ HP); unfold files, len; now rewrite map_length).
  rewrite HPL in E1, E2.
  assert (map f_name (firstn (Z.to_nat (len items mod 65536)) (dir ps)) =
     firstn (Z.to_nat (len items mod 65536)) (map (fun p => npy_name (fst p)) items)) as HN.
  { rewrite <- firstn_map, (laid_names _ _ _ _ _ HP). unfold files. now rewrite map_map. }
  split.
  - rewrite E2, HN. apply sort_sorted.
  - intros HZ. rewrite HZ in E1, E2. cbn [Z.to_nat firstn] in E1, E2. split; [rewrite E2; reflexivity|].
    intros n. unfold r_contains. rewrite E1. reflexivity.
Qed.
Print Assumptions C44_count_wraps.
(** 65536 small tensors: an archive within all other limits that opens as empty. *)
Definition tiny : tensor := u8_tensor [7].
Lemma many_tiny k : Z.of_nat k = 65536 -> exists w r,
  write_all case_env (mk_codec Ok Ok) (new_writer STORED LITTLE) (repeat (str "x", tiny) k) = Ok w /\
  opened (w_str (w_close w)) r /\ r_keys r = [] /\ forall n, r_contains r n = false.
Proof.
  intros Hk. remember (repeat (str "x", tiny) k) as items eqn:EI. set (c := mk_codec Ok Ok).
  assert (Forall (storable case_env LITTLE) items) as HS.
  { apply Forall_forall. intros p Hp. rewrite EI in Hp. apply repeat_spec in Hp. subst p. split.
    - apply u8_tensor_api; [reflexivity|]. apply is_byteb_ok. reflexivity.
    - split; [vm_compute; discriminate|]. intros b Hb. vm_compute in Hb. injection Hb as <-. reflexivity. }
  assert (Forall (packs c STORED case_env LITTLE) items) as HP by (apply Forall_forall; intros p _ b _; now right).
  destruct (archive_setup case_env c STORED LITTLE items (new_writer STORED LITTLE) (or_introl eq_refl) (or_introl eq_refl) HS HP)
    as (w & HW & Hcl & _).
  assert (len (w_str (w_close w)) < 2 ^ 32) as HL.
  { pose proof HW as HW2. rewrite (write_all_put case_env c items (new_writer STORED LITTLE) eq_refl) in HW2. cbn [new_writer w_endian] in HW2.
    pose proof (weight_all c _ _ _ HW2 eq_refl) as H1. pose proof (weight_close w) as H2.
    change (w_weight (new_writer STORED LITTLE)) with 0 in H1.
    assert (len (file_of case_env LITTLE tiny) = 129) as H129 by (vm_compute; reflexivity).
    assert (forall k, fold_right (fun p a => 124 + 2 * len (fst p) + len (snd p) + a) 0 (files case_env LITTLE (repeat (str "x", tiny) k)) <= 400 * Z.of_nat k) as HF.
    { clear -H129. induction k as [|k IH]; [cbn; lia|]. unfold files in *. cbn [repeat map fold_right fst snd].
      change (len (npy_name (str "x"))) with 5. rewrite H129, Nat2Z.inj_succ. lia. }
    specialize (HF k). rewrite <- EI, Hk in HF.
    match type of H1 with _ <= _ + ?X => assert (X <= 400 * 65536) as HF' by exact HF; set (Y := X) in * end.
    change (2 ^ 32) with 4294967296. lia. }
  destruct (C44_count_wraps case_env c LITTLE items (new_writer STORED LITTLE) w (or_introl eq_refl) HS HW HL) as ((r & HR) & _ & H).
  exists w, r. split; [exact HW|]. split; [left; exact HR|].
  destruct (H r (or_introl HR)) as [_ H']. apply H'. rewrite EI. unfold len. rewrite repeat_length, Hk. reflexivity.
Qed.
Theorem C44_full_archive_opens_empty : exists items w r, len items = 65536 /\
  write_all case_env (mk_codec Ok Ok) (new_writer STORED LITTLE) items = Ok w /\
  opened (w_str (w_close w)) r /\ r_keys r = [] /\ forall n, r_contains r n = false.
Proof.
  assert (Z.of_nat (Z.to_nat 65536) = 65536) as Hk by (apply Z2Nat.id; lia).
  remember (Z.to_nat 65536) as k eqn:E. clear E.
  destruct (many_tiny k Hk) as (w & r & H). exists (repeat (str "x", tiny) k), w, r. split; [|exact H].
  unfold len. now rewrite repeat_length.
Qed.
Print Assumptions C44_full_archive_opens_empty.

(** *** C33, in archives *)
Fixpoint placed (off : Z) (ps : list placement) : Prop :=
  match ps with
  | [] => True
  | (e, (_, cb)) :: r => entry_ok e /\ f_offset e = off /\ f_csize e = len cb /\ placed (off + len (block e cb)) r
  end.
Lemma laid_placed c m off items ps : laid c m off items ps -> placed off ps.
Proof.
  induction 1; cbn [placed]; [exact I|]. repeat split; auto; apply entry_for_ok; auto; eapply stored_method; eauto.
Qed.
Lemma placed_app a b : forall off, placed off (a ++ b) <-> placed off a /\ placed (off + len (blocks a)) b.
Proof.
  induction a as [|[e [x cb]] a IH]; intros off; cbn [app placed blocks flat_map fst snd].
  - change (len (@nil Z)) with 0. rewrite Z.add_0_r. tauto.
  - rewrite IH, len_app. fold (blocks a). replace (off + (len (block e cb) + len (blocks a))) with (off + len (block e cb) + len (blocks a)) by lia. tauto.
Qed.
Lemma placed_in off ps : placed off ps -> forall e b cb, In (e, (b, cb)) ps ->
  exists pre post, blocks ps = pre ++ block e cb ++ post /\ f_offset e = off + len pre /\ f_csize e = len cb /\ entry_ok e.
Proof.
  intros H e b cb HI. apply in_split in HI as (l1 & l2 & ->). apply placed_app in H as [_ H]. cbn [placed] in H.
  destruct H as (H1 & H2 & H3 & _). exists (blocks l1), (blocks l2). split.
  - unfold blocks. rewrite flat_map_app. reflexivity.
  - auto.
Qed.
Lemma placed_ok off ps : placed off ps -> Forall entry_ok (dir ps).
Proof.
  intros H. apply Forall_forall. intros e He. unfold dir in He. apply in_map_iff in He as ([e' [b cb]] & <- & Hp).
  now destruct (placed_in off ps H _ _ _ Hp) as (_ & _ & _ & _ & _ & HO).
Qed.
Lemma find_in_dir ps n e : find_entry (directory_map (dir ps)) n = Some e -> exists b cb, In (e, (b, cb)) ps.
Proof.
  intros H. unfold find_entry in H.
  assert (forall k, efind (directory_map (dir ps)) k = Some e -> exists b cb, In (e, (b, cb)) ps) as HX.
  { intros k Hk. apply efind_in in Hk. unfold directory_map in Hk. apply in_rev in Hk. apply in_map_iff in Hk as (e' & [= <- <-] & Hk).
    unfold dir in Hk. apply in_map_iff in Hk as ([e2 [b cb]] & <- & Hp). eauto. }
  destruct (efind (directory_map (dir ps)) n) eqn:E; [injection H as ->|]; eauto.
Qed.
Lemma placed_read v c ps r n e b cb : placed 0 ps -> serving ps r -> find_entry (directory_map (dir ps)) n = Some e ->
  In (e, (b, cb)) ps ->
  exists r', r_read_file v c r n =
    (if len cb >? mem v then Throw AllocError else
     match (if f_method e =? DEFLATED then c_inflate c cb else Ok cb) with
     | Ok b => if npy_crc32 b =? f_crc e then Ok b else Throw RuntimeError
     | Throw x => Throw x | AssertFail => AssertFail | Undef u => Undef u end, r') /\ serving ps r' /\ r_keys r' = r_keys r.
Proof.
  intros HP (E & F & W) EF HI. unfold r_read_file. rewrite E.
  destruct (placed_in 0 ps HP _ _ _ HI) as (pre & post & E1 & E2 & E3 & EO).
  destruct (read_at v c (directory_map (dir ps)) n e pre ((f_usize e >? ZIP64_LIMIT) || (f_csize e >? ZIP64_LIMIT)) cb
    (post ++ flat_map write_cd_header (dir ps) ++ write_eocd (len ps mod 65536) (len (flat_map write_cd_header (dir ps))) (len (blocks ps))) (r_in r))
    as (s' & F' & W' & HR); auto.
  { rewrite W. unfold archive_of. rewrite E1. unfold block. now rewrite <- !app_assoc. }
  rewrite HR. eexists. split; [reflexivity|]. split; [|reflexivity]. split; [reflexivity|]. cbn [r_in]. split; [exact F'|congruence].
Qed.
Lemma placed_after v c ps r r' : placed 0 ps -> serving ps r -> reader_after v c r r' -> serving ps r'.
Proof.
  intros HP HS HA.
  assert (forall r n, serving ps r -> serving ps (snd (r_read_file v c r n))) as HX.
  { intros r0 n H0. destruct (find_entry (directory_map (dir ps)) n) as [e|] eqn:EF.
    - destruct (find_in_dir _ _ _ EF) as (b & cb & HI). destruct (placed_read v c ps r0 n e b cb HP H0 EF HI) as (r1 & -> & H1 & _). exact H1.
    - destruct H0 as (E & F & W). unfold r_read_file, read_file. rewrite E, EF. unfold lift. cbn [snd]. split; auto. }
  induction HA; [exact HS|rewrite r_read_reader|rewrite r_peek_reader]; auto.
Qed.
(** Where the data of the entry after [before] starts, in an archive without ZIP64
    fields: 30 bytes of header per entry, the names and the earlier files. *)
Definition data_offset (v : env) (e : endian) (before : list (bytes * tensor)) (n : bytes) : Z :=
  fold_right (fun p a => 30 + len (npy_name (fst p)) + len (file_of v e (snd p)) + a) (30 + len (npy_name n)) before.
Lemma local_part_len m : len (local_part m) = 30 + len (m_name m) + len (m_data m).
Proof.
  unfold local_part, member_fields, le32, le16, len. repeat rewrite app_length. cbn [length app digits256 map seq]. lia.
Qed.
Lemma laid_split c m : forall l1 off n b l2 ps, laid c m off (l1 ++ (n, b) :: l2) ps ->
  exists ps1 cb ps2, ps = ps1 ++ (entry_for m n b cb (off + len (blocks ps1)), (b, cb)) :: ps2 /\
    stored_as c m b cb /\ laid c m off l1 ps1 /\ map f_name (dir ps2) = map fst l2.
Proof.
  induction l1 as [|[n1 b1] l1 IH]; intros off n b l2 ps H; cbn [app] in H.
  - inversion H; subst. exists [], cb, ps0. change (len (blocks [])) with 0. rewrite Z.add_0_r. split; [reflexivity|]. split; [assumption|]. split; [constructor|].
    eapply laid_names; eauto.
  - inversion H; subst. match goal with H : laid _ _ _ (l1 ++ _) _ |- _ => destruct (IH _ _ _ _ _ H) as (ps1 & cb' & ps2 & -> & HS & HL & HN) end.
    exists ((entry_for m n1 b1 cb off, (b1, cb)) :: ps1), cb', ps2. cbn [app blocks flat_map fst snd]. fold (blocks ps1). rewrite len_app.
    rewrite Z.add_assoc. split; [reflexivity|]. split; [exact HS|]. split; [now constructor|exact HN].
Qed.
Lemma app_prefix {A} (a b c d : list A) : a ++ b = c ++ d -> len a = len c -> a = c /\ b = d.
Proof.
  revert c. induction a as [|x a IH]; intros [|y c] H HL; cbn [app] in *; auto.
  - rewrite len_cons in HL. pose proof (len_nonneg _ c). change (len (@nil A)) with 0 in HL. lia.
  - rewrite len_cons in HL. pose proof (len_nonneg _ a). change (len (@nil A)) with 0 in HL. lia.
  - injection H as -> H. rewrite !len_cons in HL. destruct (IH c H ltac:(lia)) as [-> ->]. auto.
Qed.
Lemma efind_split ps1 ps2 (p : placement) : ~ In (f_name (fst p)) (map f_name (dir ps2)) ->
  efind (directory_map (dir (ps1 ++ p :: ps2))) (f_name (fst p)) = Some (fst p).
Proof.
  intros HN. unfold directory_map. rewrite efind_last.
  assert (forall l, ~ In (f_name (fst p)) (map f_name l) -> last_filed (map (fun e => (f_name e, e)) l) (f_name (fst p)) = None) as HX.
  { clear. induction l as [|x l IH]; intros HN; [reflexivity|]. cbn [map last_filed] in *.
    rewrite IH by (intros H; apply HN; now right). destruct (beq (f_name x) (f_name (fst p))) eqn:E; [|reflexivity].
    apply beq_eq in E. exfalso. apply HN. left. exact E. }
  assert (forall l1, last_filed (map (fun e => (f_name e, e)) (l1 ++ fst p :: dir ps2)) (f_name (fst p)) = Some (fst p)) as HY.
  { induction l1 as [|x l IH]; cbn [map app last_filed].
    - rewrite (HX _ HN), beq_refl. reflexivity.
    - rewrite IH. reflexivity. }
  unfold dir at 1. rewrite map_app. cbn [map]. apply (HY (map fst ps1)).
Qed.
Theorem C33_damaged_entry_is_reported : forall v v2 c e before n t after a a' A B file file' x w w' y r r' k d g,
  archive v c STORED e (before ++ (n, t) :: after) a -> len a <= 0x8FFFFFFF ->
  ~ In (npy_name n) (map (fun p => npy_name (fst p)) after) ->
  (* the archive, and the same bytes with the data of one entry changed *)
  save v t e = Ok file -> a = A ++ file ++ B -> len A = data_offset v e before n ->
  a' = A ++ file' ++ B -> bytes_ok file' -> len file' = len file ->
  (* the change is confined to 32 consecutive bits *)
  message_bits file = x ++ w ++ y -> message_bits file' = x ++ w' ++ y -> length w = length w' ->
  (length w <= 32)%nat -> w <> w' ->
  (* any reader of it, after any reads, by the full name or the short one *)
  opened a' r -> reader_after v2 c r r' -> len file <= mem v2 ->
  (k = npy_name n \/ (k ++ str ".npy" = npy_name n /\ ~ In k (map (fun p => npy_name (fst p)) (before ++ (n, t) :: after)))) ->
  fst (fst (r_read v2 c d r' k g)) = Throw RuntimeError.
Proof.
  intros v v2 c e before n t after a a' A B file file' x w w' y r r' k d g HA HLa HNin Hsave HAeq HAl HA' Hbok HLf M1 M2 HW1 HW2 HW3 Hop Haf Hmem Hk.
  destruct (archive_ps _ _ _ _ _ _ HA) as (ps & HP & HAr & _).
  assert (Forall (storable v e) (before ++ (n, t) :: after)) as HSt by apply HA.
  assert (len (before ++ (n, t) :: after) <= 65535) as HCnt by apply HA.
  rewrite file_of_save in Hsave. injection Hsave as Hfile.
  unfold files in HP. rewrite map_app in HP. cbn [map fst snd] in HP. rewrite Hfile in HP.
  destruct (laid_split _ _ _ _ _ _ _ _ HP) as (ps1 & cb & ps2 & Hps & HSA & HL1 & HN2).
  assert (cb = file) as ->. { destruct HSA as [[_ ->]|[H _]]; [reflexivity|discriminate]. }
  set (e0 := entry_for STORED (npy_name n) file file (0 + len (blocks ps1))) in *.
  set (ps' := ps1 ++ (e0, (file, file')) :: ps2).
  assert (dir ps' = dir ps) as HDir by (subst ps; unfold ps', dir; now rewrite !map_app).
  assert (len (block e0 file') = len (block e0 file)) as HBl by (unfold block; rewrite !len_app; lia).
  assert (len (blocks ps') = len (blocks ps)) as HBls.
  { subst ps. unfold ps', blocks. rewrite !flat_map_app. cbn [flat_map fst snd]. rewrite !len_app. lia. }
  assert (len ps' = len ps) as HLp by (subst ps; unfold ps'; rewrite !len_app, !len_cons; reflexivity).
  assert (placed 0 ps') as HPl.
  { pose proof (laid_placed _ _ _ _ _ HP) as H0. subst ps. apply placed_app in H0 as [H1 H2]. apply placed_app. split; [exact H1|].
    cbn [placed] in H2 |- *. destruct H2 as (O1 & O2 & O3 & O4). rewrite HBl, HLf. auto. }
  (* where the data is *)
  set (hd := write_local_header e0 ((f_usize e0 >? ZIP64_LIMIT) || (f_csize e0 >? ZIP64_LIMIT))).
  set (tl := fun bl => blocks ps2 ++ flat_map write_cd_header (dir ps) ++ write_eocd (len ps mod 65536) (len (flat_map write_cd_header (dir ps))) bl).
  assert (a = (blocks ps1 ++ hd) ++ file ++ tl (len (blocks ps))) as HAe.
  { rewrite HAr. unfold archive_of. unfold tl. rewrite Hps at 1. unfold blocks at 1. rewrite flat_map_app. cbn [flat_map fst snd]. unfold block at 2. fold hd.
    rewrite <- !app_assoc. reflexivity. }
  assert (archive_of ps' = (blocks ps1 ++ hd) ++ file' ++ tl (len (blocks ps))) as HAe'.
  { unfold archive_of. rewrite HDir, HLp, HBls. unfold tl. unfold ps' at 1. unfold blocks at 1. rewrite flat_map_app. cbn [flat_map fst snd]. unfold block at 2. fold hd.
    rewrite <- !app_assoc. reflexivity. }
  assert (len (blocks ps1 ++ hd) = data_offset v e before n) as HOff.
  { assert (len (blocks ps1 ++ hd) <= ZIP64_LIMIT /\ len (blocks ps1) <= ZIP64_LIMIT /\ len file <= ZIP64_LIMIT) as (B1 & B2 & B3).
    { rewrite HAe in HLa. rewrite (len_app _ (_ ++ _)), (len_app _ file), (len_app _ (blocks ps1)) in HLa. rewrite len_app. unfold ZIP64_LIMIT.
      pose proof (len_nonneg _ (blocks ps1)). pose proof (len_nonneg _ hd). pose proof (len_nonneg _ file).
      pose proof (len_nonneg _ (tl (len (blocks ps)))). lia. }
    assert (Forall (fun p => len (snd p) <= ZIP64_LIMIT) (map (fun p => (npy_name (fst p), file_of v e (snd p))) before)) as HFs.
    { apply Forall_forall. intros p Hp. apply in_map_iff in Hp as (q & <- & Hq). cbn [snd].
      clear -HL1 B2 Hq. assert (len (file_of v e (snd q)) <= len (blocks ps1)); [|lia]. clear B2.
      remember 0 as off eqn:E0. clear E0. revert off ps1 HL1.
      induction before as [|p before IH]; intros off ps1 HL1; [destruct Hq|]. inversion HL1; subst.
      assert (cb = file_of v e (snd p)) as -> by (match goal with H : stored_as _ _ _ _ |- _ => destruct H as [[_ ->]|[H _]]; [reflexivity|discriminate H] end).
      cbn [blocks flat_map fst snd]. rewrite len_app. fold (blocks ps). destruct Hq as [->|Hq].
      - unfold block. rewrite len_app. pose proof (len_nonneg _ (blocks ps)).
        match goal with |- context [write_local_header ?e ?z] => pose proof (len_nonneg _ (write_local_header e z)) end. lia.
      - match goal with H : laid _ _ _ (map _ before) _ |- _ => specialize (IH Hq _ _ H) end.
        match goal with |- context [len (block ?x ?y)] => pose proof (len_nonneg _ (block x y)) end. lia. }
    destruct (laid_zip _ _ _ _ _ HL1 HFs ltac:(lia)) as [HZ _].
    assert (len hd = 30 + len (npy_name n)) as HHd.
    { assert (block e0 file = local_part (member_of (e0, (file, file)))) as HB0.
      { apply block_local; try assumption; try reflexivity.
        pose proof (laid_ok _ _ _ _ _ HP) as HO. rewrite Hps in HO. unfold dir in HO. rewrite map_app in HO. apply Forall_app in HO as [_ HO]. now inversion HO. }
      apply (f_equal (@len Z)) in HB0. rewrite local_part_len in HB0. unfold block in HB0. rewrite len_app in HB0. fold hd in HB0.
      cbn [member_of m_name m_data fst snd f_name e0 entry_for] in HB0. lia. }
    rewrite len_app, HHd, HZ. clear -HL1. unfold data_offset. remember 0 as off eqn:E0. clear E0. revert off ps1 HL1.
    induction before as [|p before IH]; intros off ps1 HL1; inversion HL1; subst; cbn [map flat_map fold_right]; [cbn; lia|].
    rewrite len_app, local_part_len. cbn [member_of m_name m_data fst snd f_name entry_for].
    assert (cb = file_of v e (snd p)) as -> by (match goal with H : stored_as _ _ _ _ |- _ => destruct H as [[_ ->]|[H _]]; [reflexivity|discriminate H] end).
    match goal with H : laid _ _ _ (map _ before) _ |- _ => specialize (IH _ _ H) end. lia. }
  assert (a' = archive_of ps') as ->.
  { rewrite HAe in HAeq. destruct (app_prefix _ _ _ _ HAeq ltac:(congruence)) as [HX HY].
    destruct (app_prefix _ _ _ _ HY eq_refl) as [_ HZ]. rewrite HA', HAe', <- HX, <- HZ. reflexivity. }
  (* opening and reading *)
  apply open_opened in Hop as (s & F & Ws & HR).
  destruct (open_serving ps' s (placed_ok _ _ HPl)) as (r0 & HR0 & HSv & _); auto.
  { rewrite HLp, (laid_len _ _ _ _ _ HP). unfold len in *. rewrite app_length in *. cbn [length] in *. rewrite !map_length. lia. }
  { rewrite HAe'. rewrite HAe in HLa. rewrite !len_app in *. lia. }
  rewrite HR in HR0. injection HR0 as <-.
  pose proof (placed_after v2 c ps' r r' HPl HSv Haf) as HSv'.
  assert (f_name e0 = npy_name n) as HNm by reflexivity.
  assert (efind (directory_map (dir ps')) (npy_name n) = Some e0) as HEf.
  { apply (efind_split ps1 ps2 (e0, (file, file'))). cbn [fst]. rewrite HNm, HN2, map_map. exact HNin. }
  assert (find_entry (directory_map (dir ps')) k = Some e0) as HFind.
  { unfold find_entry. destruct Hk as [->|[Hk HkN]]; [now rewrite HEf|].
    destruct (efind (directory_map (dir ps')) k) as [e1|] eqn:E1; [|now rewrite Hk].
    exfalso. apply HkN. apply efind_in in E1. unfold directory_map in E1. apply in_rev in E1.
    apply in_map_iff in E1 as (e2 & [= <- <-] & E1). rewrite HDir in E1. apply (in_map f_name) in E1.
    rewrite (laid_names _ _ _ _ _ HP) in E1. rewrite map_app in *. cbn [map fst] in *. rewrite map_map in E1. cbn [fst] in E1.
    rewrite map_map in E1. exact E1. }
  assert (In (e0, (file, file')) ps') as HIn by (unfold ps'; apply in_or_app; right; now left).
  destruct (placed_read v2 c ps' r' k e0 file file' HPl HSv' HFind HIn) as (r1 & HRd & _).
  unfold r_read. rewrite HRd. assert (len file' >? mem v2 = false) as -> by lia.
  change (f_method e0) with STORED. change (STORED =? DEFLATED) with false. cbv iota.
  change (f_crc e0) with (npy_crc32 file).
  assert (npy_crc32 file' =? npy_crc32 file = false) as ->; [|reflexivity].
  apply Z.eqb_neq. intros HE.
  apply Forall_app in HSt as [_ HSt]. inversion HSt as [|? ? (Ht & _ & Hb) _]; subst x0 l. cbn [snd] in *.
  assert (len file < 2 ^ 32) as HL32 by (apply Hb; rewrite file_of_save; congruence).
  assert (bytes_ok file) as HBok by (eapply save_ok; [exact Ht|]; rewrite file_of_save; f_equal; exact Hfile).
  refine (C33_crc_catches_bursts file file' x w w' y HBok Hbok HL32 _ M1 M2 HW1 HW2 HW3 (eq_sym HE)). lia.
Qed.
Print Assumptions C33_damaged_entry_is_reported.
(** The hypotheses are met: in the four-entry archive of [C35_case], the first byte
    of the data of "b.npy" changed from 0x93 to 0x92. *)
Definition c33_writer : writer := Eval vm_compute in
  match write_all case_env (mk_codec Ok Ok) (new_writer STORED BIG) case_items with Ok w => w | _ => new_writer STORED BIG end.
Definition c33_a : bytes := Eval vm_compute in w_str (w_close c33_writer).
Definition c33_file : bytes := Eval vm_compute in match save case_env case_tensor BIG with Ok b => b | _ => [] end.
Definition c33_file' : bytes := Eval vm_compute in 0x92 :: tl c33_file.
Definition c33_offset : Z := Eval vm_compute in data_offset case_env BIG (firstn 1 case_items) (str "b.npy").
Definition c33_A : bytes := Eval vm_compute in ztake c33_offset c33_a.
Definition c33_B : bytes := Eval vm_compute in zdrop (c33_offset + len c33_file) c33_a.
Definition c33_rest : list bool := Eval vm_compute in tl (message_bits c33_file).
Example C33_archive_case : exists r,
  archive case_env (mk_codec Ok Ok) STORED BIG case_items c33_a /\ len c33_a <= 0x8FFFFFFF /\
  ~ In (npy_name (str "b.npy")) (map (fun p => npy_name (fst p)) (skipn 2 case_items)) /\
  save case_env case_tensor BIG = Ok c33_file /\ c33_a = c33_A ++ c33_file ++ c33_B /\
  len c33_A = data_offset case_env BIG (firstn 1 case_items) (str "b.npy") /\
  bytes_ok c33_file' /\ len c33_file' = len c33_file /\
  message_bits c33_file = [] ++ [true] ++ c33_rest /\ message_bits c33_file' = [] ++ [false] ++ c33_rest /\
  opened (c33_A ++ c33_file' ++ c33_B) r.
Proof.
  assert (exists r, new_string_reader (c33_A ++ c33_file' ++ c33_B) = Ok r) as [r HR] by (eexists; vm_compute; reflexivity).
  exists r. split.
  { split; [now left|]. split; [apply C35_case|]. split; [apply Forall_forall; intros p _ b _; now right|].
    split; [vm_compute; discriminate|]. split; [vm_compute; reflexivity|].
    exists (new_writer STORED BIG), c33_writer. split; [now left|]. split; vm_compute; reflexivity. }
  split; [vm_compute; discriminate|]. split; [vm_compute; intuition discriminate|].
  split; [vm_compute; reflexivity|]. split; [vm_compute; reflexivity|]. split; [vm_compute; reflexivity|].
  split. { assert (forallb (fun x => (0 <=? x) && (x <? 256)) c33_file' = true) as H by (vm_compute; reflexivity).
    apply Forall_forall. intros x Hx. rewrite forallb_forall in H. specialize (H x Hx). unfold is_byte. lia. }
  split; [vm_compute; reflexivity|]. split; [vm_compute; reflexivity|]. split; [vm_compute; reflexivity|]. now left.
Qed.
