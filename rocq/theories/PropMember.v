(** Property C71: what reading any member of any archive gives. *)
From Coq Require Import String ZArith List Bool Lia Permutation Sorted.
From Verif Require Import Base Stream BaseFacts Dtype Values Spec ValuesFacts PropValues Header HeaderFacts
  ParseFacts ParserInv ParserRel NpyFacts PropHeader Tensor Npy TensorFacts PropTensor SaveFacts PropNpy CutFacts PropCut
  Crc PropCrc Npz NpzFacts ArchiveFacts PropNpz PropZip PropAny MemberSpec DeflateFaults Tinfl PropDeflate PropSafe.
Import ListNotations.
Open Scope Z_scope.

(** ** Streams against positions, with the failure flag *)
Definition viewf (a : bytes) (f : bool) (p : Z) (s : istream) : Prop := viewb a p s /\ is_file s = f.
Lemma viewb_failb a p s : viewb a p s -> failb s = (len a <? p).
Proof.
  intros ((W & Hp & [[G R]|[F L]]) & H).
  - specialize (H G). unfold good in G. destruct (failb s); [rewrite andb_false_r in G; discriminate|]. symmetry. apply Z.ltb_ge. lia.
  - rewrite F. symmetry. now apply Z.ltb_lt.
Qed.
Definition takesf {A} (a : bytes) (f : bool) (m : IO A) (p : Z) (x : A) (q : Z) : Prop :=
  forall s, viewf a f p s -> exists s', m s = (Ok x, s') /\ viewf a f q s'.
Lemma takesf_of {A} a f (m : IO A) p x q : takes a m p x q -> keeps m -> takesf a f m p x q.
Proof.
  intros H K s [V F]. destruct (H s V) as (s' & E & V'). exists s'. split; [exact E|]. split; [exact V'|].
  specialize (K s). rewrite E in K. cbn [snd] in K. destruct K as (_ & K & _). congruence.
Qed.
Lemma run_takesf {A B} a f (m : IO A) (k : A -> IO B) p x q s : takesf a f m p x q -> viewf a f p s ->
  exists s', bind m k s = k x s' /\ viewf a f q s'.
Proof. intros H V. unfold bind. destruct (H s V) as (s1 & -> & V1). now exists s1. Qed.
Lemma keeps_64_if (b : bool) (x : Z) : keeps (if b then bind rd64 (fun u => ret (u, 8)) else ret (x, 0)).
Proof. destruct b; [apply keeps_bind; [apply keeps_rd64|intros; apply keeps_ret]|apply keeps_ret]. Qed.
Ltac run_nextf HB V s :=
  match goal with |- context [bind ?m ?k s] =>
    match type of V with viewf ?b ?f ?p _ =>
      let T := match m with
               | rd16 => constr:(takesf_of b f _ p _ _ (takes16 b p HB) keeps_rd16)
               | rd32 => constr:(takesf_of b f _ p _ _ (takes32 b p HB) keeps_rd32)
               | read_shared_header => constr:(takesf_of b f _ p _ _ (takes_shared b p HB) keeps_shared)
               | read_name (number_at _ ?r ?n) => constr:(takesf_of b f _ p _ _ (takes_name b p (number_at b r n) (proj1 (number_at_range b n HB r))) (keeps_name _))
               | (if ?c then _ else ret (?x, 0)) => constr:(takesf_of b f _ p _ _ (takes_64_if b p c x HB) (keeps_64_if c x))
               end in
      let s' := fresh "s" in let E := fresh "E" in let V' := fresh "V" in
      destruct (run_takesf b f m k p _ _ s T V) as (s' & E & V'); rewrite E; clear E V s; rename s' into s; rename V' into V
    end
  end.
Lemma seek_cur_failb a f p s d : viewf a f p s -> 0 < d ->
  failb (sseek_cur d s) = (len a <? p) || (negb f && (len a <? p + d)).
Proof.
  intros [V F] Hd. pose proof (viewb_failb _ _ _ V) as HF. destruct V as ((W & Hp & V) & G). unfold sseek_cur, spos, sseek_abs. rewrite HF.
  destruct (len a <? p) eqn:EL; [reflexivity|]. cbn [orb]. destruct V as [[Gd R]|[_ L]]; [|lia].
  rewrite W, R, len_zdrop, F. replace (len a - Z.max 0 (len a - Z.max 0 p) + d) with (p + d) by lia.
  assert (p + d <? 0 = false) as -> by lia. cbn [orb]. rewrite Z.gtb_ltb. destruct (negb f && (len a <? p + d)); reflexivity.
Qed.
Lemma extra_exact a f q h io s : bytes_ok a -> viewf a f q s ->
  let needed := 8 * (bit (full (f_csize h)) + bit (full (f_usize h)) + bit (io && full (f_offset h))) in
  match after_extra a q needed with
  | None => exists s', read_zip64_extra h io s = (Throw RuntimeError, s') /\
      failb s' = (len a <? (if negb (number_at a q 2 =? 1) then q + 2 else q + 4 + needed))
  | Some r => exists s', read_zip64_extra h io s =
       (Ok (mk_entry (f_name h) (f_crc h) (widened a (q + 4 + 8 * bit (full (f_usize h))) (f_csize h))
              (widened a (q + 4) (f_usize h)) (f_method h)
              (if io then widened a (q + 4 + 8 * bit (full (f_usize h)) + 8 * bit (full (f_csize h))) (f_offset h) else f_offset h)), s') /\
      number_at a q 2 = 1 /\ view a r s' /\ is_file s' = f /\ failb s' = (len a <? q + 4 + needed) || (negb f && (len a <? r))
  end.
Proof.
  intros HB V needed. unfold read_zip64_extra, after_extra.
  run_nextf HB V s. change ZIP64_TAG with 1. destruct (negb (number_at a q 2 =? 1)) eqn:ET.
  { exists s. split; [reflexivity|]. apply viewb_failb, V. }
  run_nextf HB V s. change ZIP64_PLACEHOLDER with (2 ^ 32 - 1).
  run_nextf HB V s. run_nextf HB V s. run_nextf HB V s. cbn [fst snd].
  fold (full (f_usize h)) (full (f_csize h)) (full (f_offset h)) in *.
  replace (8 * bit (full (f_usize h)) + 8 * bit (full (f_csize h)) + 8 * bit (io && full (f_offset h)))
    with needed by (unfold needed; lia).
  replace (q + 2 + 2) with (q + 4) in * by lia.
  replace (q + 4 + 8 * bit (full (f_usize h)) + 8 * bit (full (f_csize h)) + 8 * bit (io && full (f_offset h)))
    with (q + 4 + needed) in V by (unfold needed; lia).
  destruct (number_at a (q + 2) 2 <? needed) eqn:EL.
  { exists s. split; [reflexivity|]. apply viewb_failb, V. }
  match goal with |- context [if io && _ then ?x else ?y] =>
    assert ((if io && full (f_offset h) then x else y) = (if io then widened a (q + 4 + 8 * bit (full (f_usize h)) + 8 * bit (full (f_csize h))) (f_offset h) else f_offset h)) as HE
      by (unfold widened; destruct io; reflexivity) end.
  rewrite HE. fold (widened a (q + 4) (f_usize h)) (widened a (q + 4 + 8 * bit (full (f_usize h))) (f_csize h)).
  destruct (number_at a (q + 2) 2 >? needed) eqn:EG.
  - eexists. split; [reflexivity|]. split; [lia|].
    replace (q + 4 + number_at a (q + 2) 2) with (q + 4 + needed + (number_at a (q + 2) 2 - needed)) by lia.
    split; [apply seek_cur_view; [apply V|lia]|]. split; [destruct V as [_ <-]; apply seek_keeps|]. apply (seek_cur_failb a f); [exact V|lia].
  - exists s. split; [reflexivity|]. split; [lia|]. replace (number_at a (q + 2) 2) with needed by lia.
    split; [apply V|]. split; [apply V|]. rewrite (viewb_failb _ _ _ (proj1 V)). destruct (len a <? q + 4 + needed); [reflexivity|]. now rewrite andb_false_r.
Qed.
Lemma sig_exact {B} a f p s x0 x1 x2 x3 v (k : unit -> IO B) : bytes_ok a -> view a p s -> is_file s = f ->
  is_byte x0 -> is_byte x1 -> is_byte x2 -> is_byte x3 ->
  v = x0 + 256 * (x1 + 256 * (x2 + 256 * x3)) -> inside a p = true ->
  exists s', viewf a f (p + 4) s' /\
    bind (assert_sig [x0; x1; x2; x3]) k s = if negb (signed a p v) then (Throw RuntimeError, s') else k tt s'.
Proof.
  intros HB V F B0 B1 B2 B3 Hv HI. destruct (assert_sig_view a p s x0 x1 x2 x3 v HB V B0 B1 B2 B3 Hv) as (s' & E & V').
  exists s'. split; [split; [now apply V'|]|].
  - pose proof (keeps_sig [x0; x1; x2; x3] s) as (_ & K & _). rewrite E in K. cbn [snd] in K. congruence.
  - unfold bind. rewrite E, HI. cbn [negb]. destruct (signed a p v); reflexivity.
Qed.
Lemma local_exact a f p s : bytes_ok a -> view a p s -> is_file s = f -> inside a p = true ->
  match (if negb (signed a p 0x04034b50) then None else data_at a p) with
  | None => exists s', read_local_header s = (Throw RuntimeError, s') /\ failb s' = (len a <? header_end a p)
  | Some q => exists s', read_local_header s = (Ok (local_at a p), s') /\ view a q s' /\ is_file s' = f /\
      failb s' = (len a <? header_end a p) || (negb f && (len a <? q))
  end.
Proof.
  intros HB V0 F0 HI. unfold read_local_header, header_end.
  change LOCAL_HEADER_SIG with [0x50; 0x4B; 3; 4].
  match goal with |- context [bind (assert_sig _) ?k s] =>
    destruct (sig_exact a f p s 0x50 0x4B 3 4 0x04034b50 k HB V0 F0 ltac:(unfold is_byte; lia) ltac:(unfold is_byte; lia) ltac:(unfold is_byte; lia) ltac:(unfold is_byte; lia) eq_refl HI) as (s1 & V & HS) end.
  destruct (negb (signed a p 0x04034b50)); rewrite HS; clear HS V0 F0.
  { exists s1. split; [reflexivity|]. apply viewb_failb, V. }
  clear s. run_nextf HB V s1. replace (p + 4 + 2) with (p + 6) in * by lia. unfold data_at.
  change ZIP64_VERSION with 45. rewrite Z.gtb_ltb. destruct (45 <? number_at a (p + 4) 2).
  { exists s1. split; [reflexivity|]. apply viewb_failb, V. }
  run_nextf HB V s1. cbv beta iota. replace (p + 6 + 2) with (p + 8) in * by lia. replace (p + 6 + 8) with (p + 14) in * by lia.
  replace (p + 6 + 12) with (p + 18) in * by lia. replace (p + 6 + 16) with (p + 22) in * by lia.
  replace (p + 6 + 20) with (p + 26) in * by lia. replace (p + 6 + 22) with (p + 28) in * by lia.
  run_nextf HB V s1. replace (p + 28 + 2) with (p + 30) in * by lia.
  run_nextf HB V s1. fold (padded a (p + 30) (number_at a (p + 26) 2)). cbv zeta. rewrite Z.gtb_ltb.
  pose proof (number_at_range a 2 HB (p + 28)) as HR.
  unfold local_at, fields.
  destruct (number_at a (p + 28) 2 =? 0) eqn:EX; cbn [negb].
  - assert (0 <? number_at a (p + 28) 2 = false) as -> by lia. exists s1. split; [reflexivity|]. split; [apply V|].
    split; [apply V|]. rewrite (viewb_failb _ _ _ (proj1 V)). destruct (len a <? _); [reflexivity|]. now rewrite andb_false_r.
  - assert (0 <? number_at a (p + 28) 2 = true) as -> by lia.
    match goal with |- context [read_zip64_extra ?h ?io _] => pose proof (extra_exact a f _ h io s1 HB V) as HX; cbn [f_csize f_usize f_offset f_name f_crc f_method andb] in HX end.
    cbv zeta in HX. unfold after_extra in HX.
    replace (8 * (bit (full (number_at a (p + 18) 4)) + bit (full (number_at a (p + 22) 4)) + bit false)) with (needed_at a p) in HX
      by (unfold needed_at, bit; lia).
    destruct (number_at a (p + 30 + number_at a (p + 26) 2) 2 =? 1); cbn [negb] in *; [|exact HX].
    destruct (number_at a (p + 30 + number_at a (p + 26) 2 + 2) 2 <? needed_at a p); [exact HX|].
    destruct HX as (s2 & HX & _ & HV & HF & HE). exists s2. split; [|auto].
    rewrite HX. unfold widened at 3. change (full 0) with false. reflexivity.
Qed.
Lemma cd_exact a f p s q : bytes_ok a -> view a p s -> is_file s = f -> inside a p = true -> signed a p 0x02014b50 = true ->
  next_record a p = Some q -> exists s', read_cd_header s = (Ok (record_at a p), s') /\ view a q s' /\ is_file s' = f /\
    failb s' = record_lost f a p.
Proof.
  intros HB V0 F0 HI HSg HN. unfold read_cd_header, record_lost. rewrite HN. unfold next_record in HN.
  change CD_HEADER_SIG with [0x50; 0x4B; 1; 2].
  match goal with |- context [bind (assert_sig _) ?k s] =>
    destruct (sig_exact a f p s 0x50 0x4B 1 2 0x02014b50 k HB V0 F0 ltac:(unfold is_byte; lia) ltac:(unfold is_byte; lia) ltac:(unfold is_byte; lia) ltac:(unfold is_byte; lia) eq_refl HI) as (s1 & V & HS) end.
  rewrite HSg in HS. cbn [negb] in HS. rewrite HS. clear HS V0 F0 s.
  run_nextf HB V s1. run_nextf HB V s1. replace (p + 4 + 2) with (p + 6) in * by lia.
  change ZIP64_VERSION with 45. rewrite Z.gtb_ltb. destruct (45 <? number_at a (p + 6) 2); [discriminate HN|].
  run_nextf HB V s1. replace (p + 6 + 2 + 2) with (p + 10) in * by lia. replace (p + 6 + 2 + 8) with (p + 16) in * by lia.
  replace (p + 6 + 2 + 12) with (p + 20) in * by lia. replace (p + 6 + 2 + 16) with (p + 24) in * by lia.
  replace (p + 6 + 2 + 20) with (p + 28) in * by lia. replace (p + 6 + 2 + 22) with (p + 30) in * by lia. cbv beta iota.
  run_nextf HB V s1. do 3 run_nextf HB V s1. run_nextf HB V s1. run_nextf HB V s1.
  replace (p + 30 + 2 + 2 + 2 + 2 + 4 + 4) with (p + 46) in * by lia. replace (p + 30 + 2 + 2 + 2 + 2 + 4) with (p + 42) in * by lia.
  run_nextf HB V s1. cbv zeta. rewrite Z.gtb_ltb. pose proof (number_at_range a 2 HB (p + 30)).
  fold (record_name a p). unfold record_at, fields.
  destruct (number_at a (p + 30) 2 =? 0) eqn:EX; cbn [negb].
  - assert (0 <? number_at a (p + 30) 2 = false) as -> by lia. injection HN as <-. exists s1. split; [reflexivity|].
    split; [apply V|]. split; [apply V|]. exact (viewb_failb _ _ _ (proj1 V)).
  - assert (0 <? number_at a (p + 30) 2 = true) as -> by lia.
    match goal with |- context [read_zip64_extra ?h ?io _] => pose proof (extra_exact a f _ h io s1 HB V) as HX; cbn [f_csize f_usize f_offset f_name f_crc f_method andb] in HX end.
    cbv zeta in HX. unfold after_extra in HX. unfold full in *.
    destruct (number_at a (p + 46 + number_at a (p + 28) 2) 2 =? 1); cbn [negb] in *; [|discriminate HN].
    destruct (number_at a (p + 46 + number_at a (p + 28) 2 + 2) 2 <? _); [discriminate HN|]. injection HN as <-.
    destruct HX as (s2 & HX & _ & HV & HF & HE). exists s2. split; [|auto]. exact HX.
Qed.
Lemma name_exact a f q n s : view a q s -> is_file s = f -> 0 <= n ->
  exists s', read_name n s = (Ok (padded a q n), s') /\ failb s' = failb s || ((0 <? n) && (len a <? q + n)).
Proof.
  intros (W & Hp & V) F Hn. unfold read_name, sread, padded. destruct V as [[G R]|[Fl L]].
  - rewrite G, R. assert (failb s = false) as HF by (unfold good in G; destruct (failb s); [rewrite andb_false_r in G; discriminate|reflexivity]).
    rewrite HF. cbn [orb]. rewrite len_ztake, len_zdrop. cbv zeta.
    destruct (Z.max 0 (Z.min n (Z.max 0 (len a - Z.max 0 q))) <? n) eqn:E.
    + eexists. split; [rewrite len_ztake, len_zdrop; reflexivity|]. cbn [failb set_fail]. symmetry. apply andb_true_iff. split; apply Z.ltb_lt; lia.
    + eexists. split; [rewrite len_ztake, len_zdrop; reflexivity|]. cbn [failb set_rest]. rewrite HF. symmetry. apply andb_false_iff.
      destruct (Z_lt_dec 0 n); [right|left]; apply Z.ltb_ge; lia.
  - rewrite (failb_good _ Fl), Fl. eexists. split; [rewrite (zdrop_all _ q) by lia; destruct n; reflexivity|]. reflexivity.
Qed.

Definition filed (l : list file_entry) : emap := map (fun e => (f_name e, e)) l.
Lemma loop_exact a f n : bytes_ok a -> forall p s m ks names, view a p s -> is_file s = f ->
  directory_fate a n p = Readable names ->
  exists s', read_cd_loop n m ks s = (Ok (filed (rev (directory a n p)) ++ m, ks ++ map f_name (directory a n p)), s') /\
    names = map f_name (directory a n p) /\
    whole s' = a /\ is_file s' = f /\ (n <> O -> failb s' = directory_lost f a n p).
Proof.
  intros HB. induction n as [|n IH]; intros p s m ks names V F HD; cbn [directory_fate read_cd_loop directory directory_lost] in *.
  - injection HD as <-. exists s. rewrite app_nil_r. split; [reflexivity|]. split; [reflexivity|]. split; [apply V|]. split; [exact F|congruence].
  - destruct (inside a p) eqn:EI; [|discriminate HD]. destruct (signed a p 0x02014b50) eqn:ES; [|discriminate HD]. cbn [negb] in HD.
    destruct (next_record a p) as [q|] eqn:EN; [|discriminate HD].
    destruct (directory_fate a n q) as [names'| |] eqn:ED; try discriminate HD. injection HD as <-.
    destruct (cd_exact a f p s q HB V F EI ES EN) as (s1 & E1 & V1 & F1 & L1). unfold bind. rewrite E1.
    destruct (IH q s1 ((f_name (record_at a p), record_at a p) :: m) (ks ++ [f_name (record_at a p)]) names' V1 F1 ED)
      as (s' & E2 & EN2 & W2 & F2 & L2).
    exists s'. rewrite E2. split; [|split; [|split; [exact W2|split; [exact F2|]]]].
    + cbn [rev map]. unfold filed. rewrite map_app, <- !app_assoc. reflexivity.
    + cbn [map]. f_equal; [|exact EN2]. unfold record_at, fields. destruct (negb _); reflexivity.
    + intros _. destruct n as [|n]; [|apply L2; discriminate].
      cbn [read_cd_loop] in E2. unfold ret in E2. apply (f_equal snd) in E2. cbn [snd] in E2. subst s'. exact L1.
Qed.
Lemma open_exact a f s r : bytes_ok a -> whole s = a -> failb s = false -> is_file s = f -> open_reader s = Ok r ->
  r_entries r = filed (rev (records a)) /\ r_keys r = sort_keys (map f_name (records a)) /\
  whole (r_in r) = a /\ is_file (r_in r) = f /\ (records a <> [] -> failb (r_in r) = lost_at_once f a).
Proof.
  intros HB W F FF HO. pose proof (open_any a s HB W F) as HA.
  unfold archive_fate in HA. destruct (len a <? 22) eqn:EL; [cbn [opens_as] in HA; congruence|].
  destruct (signed a (len a - 22) 0x06054b50) eqn:ES; cbn [negb] in HA; [|cbn [opens_as] in HA; congruence].
  unfold open_reader, read_entries, sseek_end in HO. unfold bind at 1 in HO. rewrite W in HO.
  change (- CD_END_SIZE) with (-22) in HO. replace (len a + -22) with (len a - 22) in HO by lia.
  pose proof (seek_view a (len a - 22) s W F ltac:(lia)) as V.
  pose proof (proj1 (proj2 (seek_keeps (len a - 22) s))) as K1. rewrite FF in K1.
  generalize dependent (sseek_abs (len a - 22) s). intros s1 HO V K1. 
  unfold read_eocd in HO. change CD_END_SIG with [0x50; 0x4B; 5; 6] in HO.
  destruct (assert_sig_view a (len a - 22) s1 0x50 0x4B 5 6 0x06054b50 HB V) as (s2 & E & V2); try (unfold is_byte; lia).
  assert (inside a (len a - 22) = true) as HI by (unfold inside; lia). specialize (V2 HI). rewrite HI in E. cbn [negb] in E.
  pose proof (proj1 (proj2 (keeps_sig [0x50; 0x4B; 5; 6] s1))) as K2. rewrite E, K1 in K2. cbn [snd] in K2.
  unfold bind at 2 in HO. unfold bind at 1 in HO. rewrite E, ES in HO. cbn [negb] in HO. clear E V s1 K1.
  assert (takesf a f (bind rd16 (fun _ => bind rd16 (fun _ => bind rd16 (fun n => bind rd16 (fun _ => bind rd32 (fun size => bind rd32 (fun offset => ret (n, size, offset))))))))
    (len a - 18) (number_at a (len a - 14) 2, number_at a (len a - 10) 4, number_at a (len a - 6) 4) (len a - 2)) as HT.
  { apply takesf_of; [|repeat (apply keeps_bind; [first [apply keeps_rd16|apply keeps_rd32]|intros ?]); apply keeps_ret].
    eapply takes_bind; [apply takes16, HB|]. eapply takes_bind; [apply takes16, HB|]. replace (len a - 18 + 2 + 2) with (len a - 14) by lia.
    eapply takes_bind; [apply takes16, HB|]. eapply takes_bind; [apply takes16, HB|]. replace (len a - 14 + 2 + 2) with (len a - 10) by lia.
    eapply takes_bind; [apply takes32, HB|]. replace (len a - 10 + 4) with (len a - 6) by lia.
    eapply takes_bind; [apply takes32, HB|]. replace (len a - 6 + 4) with (len a - 2) by lia. apply takes_ret. }
  replace (len a - 22 + 4) with (len a - 18) in V2 by lia.
  destruct (HT s2 (conj V2 K2)) as (s3 & E3 & V3 & F3). rewrite E3 in HO. clear E3 HT.
  pose proof (viewb_failb _ _ _ V3) as L3. assert (len a <? len a - 2 = false) as EL3 by lia. rewrite EL3 in L3.
  assert (whole s3 = a) as W3 by apply V3.
  unfold bind at 1 in HO. pose proof (number_at_range a 4 HB (len a - 6)) as HR.
  pose proof (seek_view a (number_at a (len a - 6) 4) s3 W3 L3 ltac:(lia)) as V4.
  pose proof (proj1 (proj2 (seek_keeps (number_at a (len a - 6) 4) s3))) as F4. rewrite F3 in F4.
  unfold bind in HO.
  destruct (directory_fate a (Z.to_nat (number_at a (len a - 14) 2)) (number_at a (len a - 6) 4)) as [names| |] eqn:ED; cbn [opens_as] in HA; [| |].
  - destruct (loop_exact a f _ HB _ _ [] [] names V4 F4 ED) as (s' & E & _ & W' & F' & L').
    rewrite E in HO. cbn [fst snd ret app] in HO. injection HO as <-. cbn [r_entries r_keys r_in].
    rewrite app_nil_r. split; [reflexivity|]. split; [reflexivity|]. split; [exact W'|]. split; [exact F'|].
    unfold records, lost_at_once. intros HN. apply L'. intros E0. rewrite E0 in HN. now apply HN.
  - pose proof (loop_view a (Z.to_nat (number_at a (len a - 14) 2)) HB _ _ [] [] V4) as HL. rewrite ED in HL.
    destruct (read_cd_loop _ _ _ _) as [[x|x| |x] s']; cbn [fst] in HL; discriminate.
  - pose proof (loop_view a (Z.to_nat (number_at a (len a - 14) 2)) HB _ _ [] [] V4) as HL. rewrite ED in HL.
    destruct (read_cd_loop _ _ _ _) as [[x|x| |x] s']; cbn [fst] in HL; discriminate.
Qed.
Lemma beq_sym a b : beq a b = beq b a.
Proof.
  destruct (beq a b) eqn:E.
  - apply beq_eq in E as ->. symmetry. apply beq_refl.
  - destruct (beq b a) eqn:E2; [|reflexivity]. apply beq_eq in E2 as ->. rewrite beq_refl in E. discriminate.
Qed.
Lemma efind_filed l n : efind (filed l) n = find (fun e => beq (f_name e) n) l.
Proof. induction l as [|e l IH]; [reflexivity|]. cbn [filed map efind find]. rewrite beq_sym. destruct (beq _ _); [reflexivity|exact IH]. Qed.
Lemma find_entry_member a n : find_entry (filed (rev (records a))) n = member a n.
Proof. unfold find_entry, member, last_named. now rewrite !efind_filed. Qed.
Lemma entry_check_agree e l : entry_check e l = agree e l.
Proof.
  unfold entry_check, agree. rewrite (beq_sym (f_name l)), (Z.eqb_sym (f_crc l)), (Z.eqb_sym (f_method l)), (Z.eqb_sym (f_csize l)), (Z.eqb_sym (f_usize l)). reflexivity.
Qed.
Lemma directory_record_at a n : forall p e, In e (directory a n p) -> exists p', e = record_at a p'.
Proof.
  induction n as [|n IH]; intros p e H; [destruct H|]. cbn [directory] in H. destruct H as [<-|H]; [eauto|].
  destruct (next_record a p); [now apply IH in H|destruct H].
Qed.
Lemma member_in a n e : member a n = Some e -> In e (records a) /\ (f_name e = n \/ f_name e = n ++ str ".npy").
Proof.
  intros H. unfold member, last_named in H.
  destruct (find (fun x => beq (f_name x) n) (rev (records a))) as [x|] eqn:E.
  - injection H as ->. apply find_some in E as [E1 E2]. apply in_rev in E1. apply beq_eq in E2. auto.
  - apply find_some in H as [E1 E2]. apply in_rev in E1. apply beq_eq in E2. auto.
Qed.
Lemma record_ranges a p : bytes_ok a -> 0 <= f_offset (record_at a p) < 2 ^ 64 /\ 0 <= f_csize (record_at a p).
Proof.
  intros HB. unfold record_at, fields, widened.
  pose proof (fun q => number_at_range a 8 HB q) as H8. pose proof (fun q => number_at_range a 4 HB q) as H4.
  change (8 * Z.of_nat 8) with 64 in H8. change (8 * Z.of_nat 4) with 32 in H4.
  destruct (negb _); cbn [f_offset f_csize].
  - destruct (full (number_at a (p + 42) 4)), (full (number_at a (p + 20) 4));
      match goal with |- 0 <= ?x < _ /\ 0 <= ?y =>
        match x with number_at _ ?q 8 => pose proof (H8 q) | number_at _ ?q 4 => pose proof (H4 q) end;
        match y with number_at _ ?q 8 => pose proof (H8 q) | number_at _ ?q 4 => pose proof (H4 q) end end; lia.
  - pose proof (H4 (p + 42)). pose proof (H4 (p + 20)). lia.
Qed.
Lemma read_exact v c a f n e s : bytes_ok a -> whole s = a -> is_file s = f -> member a n = Some e ->
  if failb s then fst (read_file v c (filed (rev (records a))) n s) = Undef UninitRead
  else let (o, s') := read_file v c (filed (rev (records a))) n s in
    o = contents (mem v) (c_inflate c) a e /\ ((forall u, o <> Undef u) -> failb s' = exhausts f (mem v) a e).
Proof.
  intros HB W F EM. destruct (member_in _ _ _ EM) as [HIn _]. destruct (directory_record_at _ _ _ _ HIn) as (p' & HE).
  destruct (record_ranges a p' HB) as [HO HC]. rewrite <- HE in HO, HC. clear p' HE HIn.
  unfold read_file. rewrite find_entry_member, EM.
  assert (forall B (k : file_entry -> IO B) s0, good s0 = false -> fst (bind read_local_header k s0) = Undef UninitRead) as HBad.
  { intros B k s0 G. unfold bind, read_local_header, assert_sig, sread, bind. cbv beta. rewrite G. reflexivity. }
  destruct (failb s) eqn:FL.
  { unfold bind at 1. cbv beta iota. apply HBad. unfold sseek_abs. rewrite FL. apply failb_good. reflexivity. }
  unfold contents, exhausts. cbv zeta. unfold bind at 1. cbv beta iota.
  destruct (2 ^ 63 <=? f_offset e) eqn:E63; cbn [orb].
  { match goal with |- let (o, s') := ?x in _ => assert (fst x = Undef UninitRead) as HU; [|destruct x as [o s']; cbn [fst] in HU; subst o] end.
    - apply HBad. unfold sseek_abs, s64. rewrite FL. destruct (f_offset e <? 9223372036854775808) eqn:E; [lia|].
      assert (f_offset e - 18446744073709551616 <? 0 = true) as -> by lia. apply failb_good. reflexivity.
    - split; [reflexivity|]. intros H. exfalso. exact (H _ eq_refl). }
  assert (s64 (f_offset e) = f_offset e) as -> by (unfold s64; destruct (_ <? _) eqn:E; [reflexivity|lia]).
  pose proof (seek_view a (f_offset e) s W FL ltac:(lia)) as V.
  pose proof (proj1 (proj2 (seek_keeps (f_offset e) s))) as F1. rewrite F in F1.
  generalize dependent (sseek_abs (f_offset e) s). intros s1 V F1. clear s W F FL.
  destruct (inside a (f_offset e)) eqn:EI; cbn [negb].
  2:{ match goal with |- let (o, s') := ?x in _ => assert (fst x = Undef UninitRead) as HU; [|destruct x as [o s']; cbn [fst] in HU; subst o;
        split; [reflexivity|intros H; exfalso; exact (H _ eq_refl)]] end.
      clear HBad. unfold bind at 1, read_local_header. change LOCAL_HEADER_SIG with [0x50; 0x4B; 3; 4].
      match goal with |- context [bind (assert_sig _) ?k s1] =>
        pose proof (run_sig a (f_offset e) s1 0x50 0x4B 3 4 0x04034b50 k HB V ltac:(unfold is_byte; lia) ltac:(unfold is_byte; lia) ltac:(unfold is_byte; lia) ltac:(unfold is_byte; lia) eq_refl) as HG end.
      rewrite EI in HG. cbn [negb] in HG. destruct (bind (assert_sig _) _ s1) as [[x|x| |x] s']; cbn [fst] in *; try discriminate. now injection HG as ->. }
  clear HBad. pose proof (local_exact a f (f_offset e) s1 HB V F1 EI) as HL. unfold bind at 1.
  destruct (signed a (f_offset e) 67324752) eqn:ES; cbn [negb andb] in HL |- *.
  2:{ destruct HL as (s2 & -> & HF). split; [reflexivity|]. intros _. now rewrite HF, orb_false_r. }
  destruct (data_at a (f_offset e)) as [q|] eqn:ED.
  2:{ destruct HL as (s2 & -> & HF). split; [reflexivity|]. intros _. now rewrite HF, orb_false_r. }
  destruct HL as (s2 & -> & V2 & F2 & L2). rewrite entry_check_agree.
  destruct (agree e (local_at a (f_offset e))); cbn [negb andb].
  2:{ unfold lift. split; [reflexivity|]. intros _. now rewrite L2, orb_false_r. }
  rewrite Z.gtb_ltb. destruct (mem v <? f_csize e) eqn:EMem.
  { unfold lift. split; [reflexivity|]. intros _. assert (f_csize e <=? mem v = false) as -> by lia. cbn [andb]. now rewrite L2, orb_false_r. }
  assert (f_csize e <=? mem v = true) as -> by lia. cbn [andb].
  destruct (name_exact a f q (f_csize e) s2 V2 F2 HC) as (s3 & E3 & L3). unfold bind at 1. rewrite E3.
  rewrite L2 in L3. rewrite orb_assoc, <- L3. clear L2 L3 E3 V2 F2.
  unfold bind, lift, ret, checksum. change DEFLATED with 8. destruct (f_method e =? 8).
  - destruct (c_inflate c (padded a q (f_csize e))) as [b|x| |u].
    + destruct (npy_crc32 b =? f_crc e); split; reflexivity.
    + split; reflexivity.
    + split; reflexivity.
    + split; [reflexivity|]. intros H. exfalso. exact (H _ eq_refl).
  - destruct (npy_crc32 (padded a q (f_csize e)) =? f_crc e); split; reflexivity.
Qed.

(** ** C71 *)

(** What is in the directory of an archive that opens: [on_disk] says which reader. *)
Definition opens (on_disk : bool) (a : bytes) : outcome reader :=
  if on_disk then new_file_reader (Some a) else new_string_reader a.
Lemma opens_exact on_disk a r : bytes_ok a -> opens on_disk a = Ok r ->
  r_entries r = filed (rev (records a)) /\ r_keys r = sort_keys (map f_name (records a)) /\
  whole (r_in r) = a /\ is_file (r_in r) = on_disk /\ (records a <> [] -> failb (r_in r) = lost_at_once on_disk a).
Proof.
  intros HB H. destruct on_disk; cbn [opens] in H.
  - apply (open_exact a true (open_file a) r HB); auto.
  - apply (open_exact a false (open_str a) r HB); auto.
Qed.
Theorem C71_names : forall on_disk a r, bytes_ok a -> opens on_disk a = Ok r ->
  StronglySorted lex_le (r_keys r) /\ Permutation (r_keys r) (map f_name (records a)) /\
  forall n, r_contains r n = true <-> In n (map f_name (records a)).
Proof.
  intros f a r HB H. destruct (opens_exact f a r HB H) as (E1 & E2 & _). rewrite E2. split; [apply sort_sorted|]. split; [apply sort_sorted|].
  intros n. unfold r_contains. rewrite E1, efind_filed. destruct (find _ _) as [e|] eqn:E.
  - split; [intros _|reflexivity]. apply find_some in E as [E3 E4]. apply beq_eq in E4 as <-. apply in_map. now apply in_rev.
  - split; [discriminate|]. intros HI. apply in_map_iff in HI as (e & <- & HI). apply in_rev in HI.
    pose proof (find_none _ _ E e HI) as HX. cbn in HX. rewrite beq_refl in HX. discriminate.
Qed.
Print Assumptions C71_names.

(** One member, after any other reads: the bytes decide, unless an earlier read has run
    past the end of the file. *)
Theorem C71_member : forall on_disk v c a r r' n, bytes_ok a -> opens on_disk a = Ok r -> reader_after v c r r' ->
  fst (r_read_file v c r' n) =
  match member a n with
  | None => Throw InvalidArgument
  | Some e => if failb (r_in r') then Undef UninitRead else contents (mem v) (c_inflate c) a e
  end.
Proof.
  intros f v c a r r' n HB H HA. destruct (opens_exact f a r HB H) as (E1 & _ & E3 & E4 & _).
  destruct (after_facts v c r r' HA) as (H1 & H2 & _ & _ & H5). unfold r_read_file. rewrite H1, E1.
  destruct (member a n) as [e|] eqn:EM.
  - pose proof (read_exact v c a f n e (r_in r') HB ltac:(congruence) ltac:(congruence) EM) as HR.
    destruct (read_file v c (filed (rev (records a))) n (r_in r')) as [o s]. destruct (failb (r_in r')); cbn [fst] in *; [exact HR|apply HR].
  - unfold read_file. rewrite find_entry_member, EM. reflexivity.
Qed.
Print Assumptions C71_member.

(** A program opens an archive and asks for members until an answer is undefined: the bytes
    decide all the answers. *)
Fixpoint ask (v : env) (c : codec) (r : reader) (names : list bytes) : list (outcome bytes) :=
  match names with
  | [] => []
  | n :: rest => match r_read_file v c r n with
                 | (Undef u, _) => [Undef u]
                 | (o, r') => o :: ask v c r' rest
                 end
  end.
Lemma ask_exact v c a f names : bytes_ok a -> forall r lost,
  r_entries r = filed (rev (records a)) -> whole (r_in r) = a -> is_file (r_in r) = f ->
  (records a <> [] -> failb (r_in r) = lost) ->
  ask v c r names = answers_to f (mem v) (c_inflate c) a lost names.
Proof.
  intros HB. induction names as [|n names IH]; intros r lost E W F HL; [reflexivity|]. cbn [ask answers_to].
  unfold r_read_file. rewrite E. pose proof (keeps_file v c (filed (rev (records a))) n (r_in r)) as (K1 & K2 & _ & _).
  destruct (member a n) as [e|] eqn:EM.
  - assert (records a <> []) as HN by (destruct (member_in _ _ _ EM) as [HI _]; intros E0; rewrite E0 in HI; destruct HI).
    specialize (HL HN). pose proof (read_exact v c a f n e (r_in r) HB W F EM) as HR. rewrite HL in HR.
    destruct (read_file v c (filed (rev (records a))) n (r_in r)) as [o s]. cbn [fst snd] in *. destruct lost.
    + subst o. reflexivity.
    + destruct HR as [-> HR]. destruct (contents (mem v) (c_inflate c) a e) as [b|x| |u]; try reflexivity;
        (f_equal; apply IH; cbn [r_entries r_in]; [reflexivity|congruence|congruence|intros _; apply HR; discriminate]).
  - unfold read_file. rewrite find_entry_member, EM. unfold lift. f_equal. apply IH; cbn [r_entries r_in]; auto.
Qed.
Theorem C71_sessions : forall on_disk v c a names, bytes_ok a ->
  match archive_fate a with
  | Readable l => l = map f_name (records a) /\ exists r, opens on_disk a = Ok r /\
      ask v c r names = answers_to on_disk (mem v) (c_inflate c) a (lost_at_once on_disk a) names
  | Refused => opens on_disk a = Throw RuntimeError
  | Runs_off => opens on_disk a = Undef UninitRead
  end.
Proof.
  intros f v c a names HB. assert (opens_as (archive_fate a) (opens f a)) as HO by (destruct f; apply (C59_any_bytes_as_archive a HB)).
  destruct (archive_fate a) as [l| |] eqn:EF; cbn [opens_as] in HO; [|exact HO|exact HO].
  split.
  - unfold archive_fate in EF. destruct (len a <? 22); [discriminate EF|]. destruct (negb _); [discriminate EF|].
    unfold records. clear HO. revert l EF. generalize (number_at a (len a - 6) 4) as p. generalize (Z.to_nat (number_at a (len a - 14) 2)) as n.
    induction n as [|n IH]; intros p l EF; cbn [directory_fate directory] in *; [now injection EF as <-|].
    destruct (negb (inside a p)); [discriminate EF|]. destruct (negb (signed a p _)); [discriminate EF|].
    destruct (next_record a p) as [q|]; [|discriminate EF]. destruct (directory_fate a n q) as [l'| |] eqn:E; try discriminate EF. injection EF as <-.
    cbn [map]. f_equal; [unfold record_at, fields; destruct (negb _); reflexivity|]. now apply IH.
  - destruct HO as (r & HO & _). exists r. split; [exact HO|]. destruct (opens_exact f a r HB HO) as (E1 & _ & E3 & E4 & E5).
    now apply ask_exact.
Qed.
Print Assumptions C71_sessions.

(** Tensors and headers: made of the contents as if those were in a file of their own. *)
Definition on_contents {A} (x : outcome bytes) (k : bytes -> outcome A) : outcome A :=
  match x with Ok b => k b | Throw e => Throw e | AssertFail => AssertFail | Undef u => Undef u end.
Theorem C71_tensors : forall on_disk v c a r r' n g, bytes_ok a -> opens on_disk a = Ok r -> reader_after v c r r' ->
  let bytes_read := match member a n with
                    | None => Throw InvalidArgument
                    | Some e => if failb (r_in r') then Undef UninitRead else contents (mem v) (c_inflate c) a e
                    end in
  (forall d, fst (fst (r_read v c d r' n g)) = on_contents bytes_read (fun b => fst (fst (load v d (open_str b) g)))) /\
  fst (fst (r_peek v c r' n g)) = on_contents bytes_read (fun b => fst (fst (peek v (open_str b) g))).
Proof.
  intros f v c a r r' n g HB H HA. cbv zeta. rewrite <- (C71_member f v c a r r' n HB H HA). unfold r_read, r_peek.
  destruct (r_read_file v c r' n) as [[b|x| |u] r2]; cbn [fst on_contents]; (split; [intros d|]; try reflexivity).
  - now destruct (load v d (open_str b) g) as [[o s] g'].
  - now destruct (peek v (open_str b) g) as [[o s] g'].
Qed.
Print Assumptions C71_tensors.

(** An archive whose headers and data all lie inside the file never runs off it, whatever
    is asked, in whatever order: only decompression can then be undefined. *)
Definition in_bounds (a : bytes) (e : file_entry) : Prop :=
  let p := f_offset e in
  p + 30 + number_at a (p + 26) 2 <= len a /\ header_end a p <= len a /\
  forall q, data_at a p = Some q -> q + f_csize e <= len a.
Theorem C71_contained_archives : forall on_disk v c a r names, bytes_ok a -> len a < 2 ^ 63 -> opens on_disk a = Ok r ->
  lost_at_once on_disk a = false -> Forall (in_bounds a) (records a) ->
  forall o u, In o (ask v c r names) -> o = Undef u ->
    exists e q raw, In e (records a) /\ f_method e = 8 /\ data_at a (f_offset e) = Some q /\
      ztake (f_csize e) (zdrop q a) = raw /\ len raw = f_csize e /\ c_inflate c raw = Undef u.
Proof.
  intros f v c a r names HB HL HO HX HF o u HI ->. destruct (opens_exact f a r HB HO) as (E1 & _ & E3 & E4 & E5).
  rewrite (ask_exact v c a f names HB r _ E1 E3 E4 E5), HX in HI. clear - HI HF HB HL.
  assert (forall e, In e (records a) -> exhausts f (mem v) a e = false) as HEx.
  { intros e He. eapply Forall_forall in HF; [|exact He]. destruct HF as (_ & H2 & H3).
    destruct (directory_record_at _ _ _ _ He) as (p' & HE). destruct (record_ranges a p' HB) as [_ HC]. rewrite <- HE in HC.
    unfold exhausts. assert (len a <? header_end a (f_offset e) = false) as -> by lia. cbn [orb].
    destruct (signed _ _ _); [|reflexivity]. cbn [andb]. destruct (data_at a (f_offset e)) as [q|]; [|reflexivity].
    specialize (H3 q eq_refl). assert (len a <? q = false) as -> by lia. assert (len a <? q + f_csize e = false) as -> by lia.
    now rewrite !andb_false_r. }
  induction names as [|n names IH]; [destruct HI|]. cbn [answers_to] in HI.
  destruct (member a n) as [e|] eqn:EM.
  2:{ destruct HI as [HI|HI]; [discriminate HI|now apply IH]. }
  destruct (member_in _ _ _ EM) as [He _]. rewrite (HEx e He) in HI.
  assert (contents (mem v) (c_inflate c) a e = Undef u \/ In (Undef u) (answers_to f (mem v) (c_inflate c) a false names)) as [HC|HC]; [| |now apply IH].
  { destruct (contents (mem v) (c_inflate c) a e) as [b|x| |u'].
    1-3: destruct HI as [HI|HI]; [discriminate HI|now right].
    destruct HI as [HI|[]]. now left. }
  clear IH HI. eapply Forall_forall in HF; [|exact He]. destruct HF as (H1 & H2 & H3).
  destruct (directory_record_at _ _ _ _ He) as (p' & HE). destruct (record_ranges a p' HB) as [HO HCs]. rewrite <- HE in HO, HCs.
  pose proof (number_at_range a 2 HB (f_offset e + 26)) as HR.
  unfold contents in HC. cbv zeta in HC. assert (2 ^ 63 <=? f_offset e = false) as E63 by lia. rewrite E63 in HC. cbn [orb] in HC.
  assert (inside a (f_offset e) = true) as EI by (unfold inside; lia). rewrite EI in HC. cbn [negb] in HC.
  destruct (signed _ _ _); cbn [negb] in HC; [|discriminate HC]. destruct (data_at a (f_offset e)) as [q|] eqn:ED; [|discriminate HC].
  destruct (agree _ _); cbn [negb] in HC; [|discriminate HC]. destruct (mem v <? f_csize e); [discriminate HC|].
  specialize (H3 q eq_refl).
  assert (0 <= q) as Hq.
  { clear - ED HO HR HB. unfold data_at in ED. pose proof (number_at_range a 2 HB (f_offset e + 30 + number_at a (f_offset e + 26) 2 + 2)) as HR2.
    cbv zeta in ED. revert ED HR HR2. generalize (number_at a (f_offset e + 30 + number_at a (f_offset e + 26) 2 + 2) 2) as y.
    generalize (number_at a (f_offset e + 26) 2) as x. intros x y ED HR HR2.
    destruct (45 <? _); [discriminate ED|]. destruct (number_at a (f_offset e + 28) 2 =? 0); [injection ED as <-; lia|]. destruct (negb _); [discriminate ED|].
    destruct (_ <? _); [discriminate ED|]. injection ED as <-. lia. }
  assert (len (ztake (f_csize e) (zdrop q a)) = f_csize e) as HLen by (rewrite len_ztake, len_zdrop; lia).
  assert (padded a q (f_csize e) = ztake (f_csize e) (zdrop q a)) as HP by (unfold padded; rewrite HLen, Z.sub_diag; apply app_nil_r).
  rewrite HP in HC. exists e, q, (ztake (f_csize e) (zdrop q a)). 
  destruct (f_method e =? 8) eqn:E8; [|destruct (checksum _ =? _); discriminate HC].
  split; [exact He|]. split; [lia|]. split; [exact ED|]. split; [reflexivity|]. split; [exact HLen|].
  destruct (c_inflate c _) as [b|x| |u']; [destruct (checksum b =? _); discriminate HC|discriminate HC|discriminate HC|exact HC].
Qed.
Print Assumptions C71_contained_archives.

(** With libnpy's own decompressor, whose faults C60 and C62 describe: if moreover every
    compressed member is at most 1 MiB packed and is not one of the senseless streams of
    C60, every request of every session is answered, with bytes or an exception. *)
Theorem C71_no_undefined_answers : forall on_disk v c a r names, bytes_ok a -> len a < 2 ^ 63 -> c_inflate c = npy_inflate -> host_big v = false ->
  opens on_disk a = Ok r -> lost_at_once on_disk a = false -> Forall (in_bounds a) (records a) ->
  (forall e q, In e (records a) -> f_method e = 8 -> data_at a (f_offset e) = Some q ->
    f_csize e <= 2 ^ 20 /\ ~ senseless (ztake (f_csize e) (zdrop q a))) ->
  forall o, In o (ask v c r names) -> forall u, o <> Undef u.
Proof.
  intros f v c a r names HB HL HC _ HO HX HF HS o HI u E.
  destruct (C71_contained_archives f v c a r names HB HL HO HX HF o u HI E) as (e & q & raw & He & H8 & HD & HR & HLen & HU).
  destruct (HS e q He H8 HD) as [H20 HN]. rewrite HR in HN. rewrite HC in HU.
  refine (C62_sensible_streams_are_safe raw _ _ HN u HU); [|lia].
  subst raw. unfold bytes_ok. apply Forall_ztake, Forall_zdrop, HB.
Qed.
Print Assumptions C71_no_undefined_answers.

(** Cases: an archive of one stored member, asked for it, for a missing one, and for it again; the
    same archive, but the directory and the local header claim 200 bytes: the bytes past
    the end are taken as zeros, the checksum fails, and then the archive is lost. *)
Definition one_member (claimed : Z) : bytes :=
  let e := mk_entry (str "a") (npy_crc32 [1; 2; 3]) claimed claimed 0 0 in
  write_local_header e false ++ [1; 2; 3] ++ write_cd_header e ++ write_eocd 1 47 34.
Example C71_case :
  (exists r, opens false (one_member 3) = Ok r /\ ask case_env case_codec r [str "a"; str "b"; str "a"]
     = [Ok [1; 2; 3]; Throw InvalidArgument; Ok [1; 2; 3]]) /\
  records (one_member 3) = [mk_entry (str "a") (npy_crc32 [1; 2; 3]) 3 3 0 0] /\
  answers_to false (2 ^ 40) Ok (one_member 3) false [str "a"; str "b"; str "a"] = [Ok [1; 2; 3]; Throw InvalidArgument; Ok [1; 2; 3]] /\
  answers_to true (2 ^ 40) Ok (one_member 200) false [str "a"; str "b"; str "a"] = [Throw RuntimeError; Throw InvalidArgument; Undef UninitRead] /\
  Forall (in_bounds (one_member 3)) (records (one_member 3)) /\
  lost_at_once false (one_member 3) = false /\ bytes_ok (one_member 3).
Proof.
  split.
  { pose proof (C71_sessions false case_env case_codec (one_member 3) [str "a"; str "b"; str "a"]) as H.
    assert (bytes_ok (one_member 3)) as HB by (apply is_byteb_ok; vm_compute; reflexivity). specialize (H HB).
    assert (archive_fate (one_member 3) = Readable [str "a"]) as E by (vm_compute; reflexivity). rewrite E in H.
    destruct H as (_ & r & H1 & H2). exists r. split; [exact H1|]. rewrite H2. vm_compute. reflexivity. }
  split; [vm_compute; reflexivity|]. split; [vm_compute; reflexivity|]. split; [vm_compute; reflexivity|].
  split. { assert (records (one_member 3) = [mk_entry (str "a") (npy_crc32 [1; 2; 3]) 3 3 0 0]) as -> by (vm_compute; reflexivity).
    constructor; [|constructor]. split; [vm_compute; discriminate|]. split; [vm_compute; discriminate|].
    intros q E. assert (data_at (one_member 3) 0 = Some 31) as E' by (vm_compute; reflexivity). cbn [f_offset] in E. rewrite E' in E. injection E as <-. vm_compute. discriminate. }
  split; [vm_compute; reflexivity|]. apply is_byteb_ok; vm_compute; reflexivity.
Qed.
