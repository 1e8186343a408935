(** C65: what a release build takes arbitrary header text, and arbitrary files, to mean. *)
From Coq Require Import String ZArith List Bool Lia.
From Verif Require Import Base Stream BaseFacts Dtype Values Spec ValuesFacts PropValues Header HeaderFacts ParserInv ParserRel Tensor Npy
  PropHeader TensorFacts SaveFacts CutFacts PropCut LenientSpec LenientFacts LenientText.
Import ListNotations.
Open Scope Z_scope.

(** For every text and after any earlier parses: which headers are returned, when the
    behaviour is undefined, and that everything else is refused with an exception. *)
Theorem C65_header_text : forall v g text, dbg v = false -> prior_parses g ->
  let result := fst (parse_dictionary v text g) in
  (forall h, result = Ok h <-> exists fs, header_read text fs /\ made fs header_uninit h) /\
  (forall u, result = Undef u <-> u = OutOfBounds /\ code_missing text) /\
  (forall e, result = Throw e -> (forall fs h, header_read text fs -> ~ made fs header_uninit h) /\ ~ code_missing text) /\
  result <> AssertFail.
Proof.
  intros v g text HD HG result.
  assert (result = f_entries (S (length text)) (f_char (Some text)) header_uninit) as ER by (apply parse_text; [exact HD|now apply prior_map_ok]).
  assert (result <> AssertFail) as HA.
  { intros E. pose proof (parse_dictionary_release_outcomes v text g HD) as H. unfold result in E. now rewrite E in H. }
  assert (forall h, result = Ok h <-> exists fs, header_read text fs /\ made fs header_uninit h) as H1.
  { intros h. rewrite ER. destruct text as [|x body].
    - cbn [f_char length]. rewrite entries_nowhere. split; [discriminate|]. intros (fs & (x & body & r & HX & _) & _). discriminate.
    - cbn [f_char]. rewrite entries_ok by (cbn [length]; lia). split.
      + intros (fs & r & HE & HC & HM). exists fs. split; [|exact HM]. exists x, body, r. auto.
      + intros (fs & (x' & body' & r & [= <- <-] & HE & HC) & HM). exists fs, r. auto. }
  assert (forall u, result = Undef u <-> u = OutOfBounds /\ code_missing text) as H2.
  { intros u. rewrite ER. destruct text as [|x body].
    - cbn [f_char length]. rewrite entries_nowhere. split; [discriminate|]. intros (_ & x & body & fs & r & h & HX & _). discriminate.
    - cbn [f_char]. rewrite entries_undef by (cbn [length]; lia). split.
      + intros (-> & fs & r & h & HE & HM & HC & HN). split; [reflexivity|]. exists x, body, fs, r, h. auto.
      + intros (-> & x' & body' & fs & r & h & [= <- <-] & HE & HM & HC & HN). split; [reflexivity|]. exists fs, r, h. auto. }
  split; [exact H1|]. split; [exact H2|]. split; [|exact HA].
  intros e E. split.
  - intros fs h HR HM. assert (result = Ok h) by (apply H1; eauto). congruence.
  - intros HC. assert (result = Undef OutOfBounds) by (apply H2; auto). congruence.
Qed.
Print Assumptions C65_header_text.

(** The text has one meaning at most. *)
Theorem C65_one_meaning : forall text fs fs' h h',
  header_read text fs -> made fs header_uninit h -> header_read text fs' -> made fs' header_uninit h' -> h = h'.
Proof.
  intros text fs fs' h h' H1 H2 H3 H4.
  destruct (C65_header_text (mk_env false false 0) (zrepeat 0 65536, DTYPE_MAP) text eq_refl prior_none) as [H _].
  assert (fst (parse_dictionary (mk_env false false 0) text (zrepeat 0 65536, DTYPE_MAP)) = Ok h) as E1 by (apply H; eauto).
  assert (fst (parse_dictionary (mk_env false false 0) text (zrepeat 0 65536, DTYPE_MAP)) = Ok h') as E2 by (apply H; eauto). congruence.
Qed.
Print Assumptions C65_one_meaning.

(** The header text of a file, given the bytes that remain in the stream: the first six are
    not looked at; two give the version, 1.0 or 2.0; two or four give the length. Text that
    the file lacks counts as zero bytes. *)
Definition cut_to (n : Z) (after text : bytes) : Prop := exists k, text = ztake n after ++ zrepeat 0 k /\ len text = n.
Inductive text_of : bytes -> bytes -> Prop :=
| Text_v1 six a b after text : len six = 6 -> cut_to (a + 256 * b) after text ->
    text_of (six ++ [1; 0; a; b] ++ after) text
| Text_v2 six a b c d after text : len six = 6 -> a + 256 * b + 65536 * c + 16777216 * d < 2 ^ 31 ->
    cut_to (a + 256 * b + 65536 * c + 16777216 * d) after text -> text_of (six ++ [2; 0; a; b; c; d] ++ after) text.
Lemma no_text v g : prior_parses g -> fst (parse_dictionary v [] g) = if dbg v then Undef UninitRead else Throw RuntimeError.
Proof.
  intros HG. destruct (dbg v) eqn:HD; [|rewrite parse_text by (auto; now apply prior_map_ok); reflexivity].
  unfold parse_dictionary, p_char, p_get, with_in, bind. rewrite HD. reflexivity.
Qed.
(** The bytes a file starts with, which only a debug build looks at. *)
Definition magic : bytes := [147; 78; 85; 77; 80; 89].
(** What follows the ten (or twelve) fixed bytes. *)
Lemma peek_rest v s n g : 0 <= n ->
  let r := (if n >? mem v then (Throw AllocError, s, g) else
        let (d0, s3) := sread n s in let buf := d0 ++ zrepeat 0 (n - len d0) in
        let (o, g') := parse_dictionary v buf g in (o, s3, g')) in
  forall text, cut_to n (available s) text ->
  fst (fst r) = if len text >? mem v then Throw AllocError else fst (parse_dictionary v text g).
Proof.
  intros Hn r text (k & HT & HL). unfold r. rewrite HL. destruct (n >? mem v); [reflexivity|].
  destruct (sread_available n s Hn) as [H1 _]. destruct (sread n s) as [d0 s3]. cbn [fst] in H1. cbv zeta.
  assert (d0 ++ zrepeat 0 (n - len d0) = text) as ->.
  { rewrite H1, HT. f_equal. rewrite HT, len_app, len_zrepeat in HL. destruct (Z_le_gt_dec k 0).
    - unfold zrepeat. assert (Z.to_nat k = 0%nat) as -> by lia. assert (Z.to_nat (n - len (ztake n (available s))) = 0%nat) as -> by lia. reflexivity.
    - f_equal. lia. }
  destruct (parse_dictionary v text g). reflexivity.
Qed.
Lemma cut_exists n after : 0 <= n -> exists text, cut_to n after text.
Proof.
  intros Hn. exists (ztake n after ++ zrepeat 0 (n - len (ztake n after))), (n - len (ztake n after)). split; [reflexivity|].
  rewrite len_app, len_zrepeat, len_ztake. pose proof (len_nonneg _ after). lia.
Qed.
Lemma split_ten (l : bytes) : (length l < 10)%nat \/ exists a0 a1 a2 a3 a4 a5 a6 a7 a8 a9 r, l = a0 :: a1 :: a2 :: a3 :: a4 :: a5 :: a6 :: a7 :: a8 :: a9 :: r.
Proof. do 10 (destruct l as [|? l]; [left; cbn; lia|]). right. do 11 eexists. reflexivity. Qed.

Lemma peek_text v s g : (dbg v = false \/ ztake 6 (available s) = magic) -> prior_parses g -> bytes_ok (available s) -> mem v < 2 ^ 63 ->
  (exists text, text_of (available s) text /\
     fst (fst (peek v s g)) = if len text >? mem v then Throw AllocError else fst (parse_dictionary v text g)) \/
  ((forall text, ~ text_of (available s) text) /\
   (fst (fst (peek v s g)) = Undef UninitRead \/ exists e, fst (fst (peek v s g)) = Throw e)).
Proof.
  intros HD HG HB HM. unfold peek, read_npy_header.
  destruct (sread_available STATIC_HEADER_LENGTH s ltac:(unfold STATIC_HEADER_LENGTH; lia)) as [H1 H2]. unfold STATIC_HEADER_LENGTH in *.
  destruct (sread 10 s) as [got s1]. cbn [fst snd] in H1, H2.
  assert ((if dbg v then check_magic (cells 10 got) 0 [147; 78; 85; 77; 80; 89] else Ok tt) = Ok tt) as HCM.
  { destruct HD as [->|HD]; [reflexivity|]. destruct (dbg v); [|reflexivity]. clear - HD H1.
    rewrite <- (ztake_zdrop _ 6 (available s)), HD in H1. rewrite H1. generalize (zdrop 6 (available s)). intros l.
    unfold magic. do 4 (destruct l as [|? l]; [reflexivity|]). cbn [app ztake]. reflexivity. }
  cbv zeta. rewrite HCM. cbn [obind]. clear HCM.
  set (l := available s) in *. clearbody l.
  assert (forall (o : outcome header_info), o = Undef UninitRead -> o = Undef UninitRead \/ exists e, o = Throw e) as HU by auto.
  assert (forall s2, fst (fst (if 0 >? mem v then (Throw AllocError, s2, g) else
        let (d0, s3) := sread 0 s2 in let buf := d0 ++ zrepeat 0 (0 - len d0) in
        let (o, g') := parse_dictionary v buf g in (o, s3, g'))) = Undef UninitRead \/
     exists e, fst (fst (if 0 >? mem v then (Throw AllocError, s2, g) else
        let (d0, s3) := sread 0 s2 in let buf := d0 ++ zrepeat 0 (0 - len d0) in
        let (o, g') := parse_dictionary v buf g in (o, s3, g'))) = Throw e) as H0.
  { intros s2. rewrite (peek_rest v s2 0 g ltac:(lia) []).
    - rewrite len_nil. destruct (0 >? mem v); [right; eauto|]. rewrite no_text by assumption. destruct (dbg v); eauto.
    - exists 0. split; [|reflexivity]. now destruct (available s2). }
  destruct (split_ten l) as [HS|(a0 & a1 & a2 & a3 & a4 & a5 & a6 & a7 & a8 & a9 & r & El)].
  - right. split.
    + intros text HT. clear - HS HT. destruct HT; rewrite !app_length in HS; cbn [length] in HS; unfold len in *; lia.
    + assert (got = l) as HGL by (rewrite H1; apply ztake_all; unfold len; lia). rewrite HGL. clear HGL H1 H2 HB.
      do 10 (try (destruct l as [|? l])); try (cbn [length] in HS; lia); clear HS.
      all: cbn [cells firstn map nth repeat app and_then cell_is cell obind].
      all: try (left; reflexivity).
      all: repeat match goal with |- context [if ?b then _ else _] => lazymatch b with (_ =? _) => destruct b; cbn [obind] | _ => fail end end.
      all: try (left; reflexivity).
      all: first [apply H0 | destruct (sread 2 s1); left; reflexivity].
  - assert (got = [a0; a1; a2; a3; a4; a5; a6; a7; a8; a9]) as -> by (rewrite H1, El; cbn; now destruct r).
    assert (available s1 = r) as HA.
    { destruct H2 as [H2|H2]; [rewrite El in H2; rewrite !len_cons in H2; pose proof (len_nonneg _ r); lia|]. rewrite H2, El. cbn. now destruct r. }
    assert (forall x, In x l -> 0 <= x < 256) as HB1 by (intros x Hx; unfold bytes_ok in HB; rewrite Forall_forall in HB; exact (HB x Hx)).
    assert (0 <= a8 < 256) as B8 by (apply HB1; rewrite El; cbn; tauto). assert (0 <= a9 < 256) as B9 by (apply HB1; rewrite El; cbn; tauto).
    assert (forall x, In x r -> 0 <= x < 256) as HBr by (intros x Hx; apply HB1; rewrite El; cbn; tauto). clear HB HB1 H1 H2.
    cbn [cells firstn map nth repeat app and_then cell_is cell obind].
    assert (forall b c text, text_of l text -> a6 = b -> a7 = c -> b = 1 /\ c = 0 \/ b = 2 /\ c = 0 /\ (2 <= length r)%nat) as HV.
    { intros b c text HT <- <-. clear - HT El. inversion HT; subst; do 6 (destruct six as [|? six]; [vm_compute in H; discriminate|]);
        (destruct six; [|unfold len in H; cbn [length] in H; lia]); cbn [app] in *.
      - injection H1 as _ _ _ _ _ _ <- <- _. now left.
      - injection H2 as _ _ _ _ _ _ <- <- _ _ <-. right. cbn [length]. split; [reflexivity|]. split; [reflexivity|lia]. }
    destruct (a6 =? 1) eqn:E6; cbn [obind].
    + destruct (a7 =? 0) eqn:E7; cbn [obind].
      * left. destruct (cut_exists (a8 + 256 * a9) r ltac:(lia)) as [text HT]. exists text. split.
        -- assert (a6 = 1) as -> by lia. assert (a7 = 0) as -> by lia. rewrite El. exact (Text_v1 [a0; a1; a2; a3; a4; a5] a8 a9 r text eq_refl HT).
        -- apply peek_rest; [lia|]. rewrite HA. exact HT.
      * assert (a6 =? 2 = false) as -> by lia. cbn [obind]. right. split; [|apply H0].
        intros text HT. destruct (HV _ _ text HT eq_refl eq_refl) as [[_ HX]|[HX _]]; lia.
    + destruct (a6 =? 2) eqn:E6'; cbn [obind].
      2:{ right. split; [|apply H0]. intros text HT. destruct (HV _ _ text HT eq_refl eq_refl) as [[HX _]|[HX _]]; lia. }
      destruct (a7 =? 0) eqn:E7; cbn [obind].
      2:{ right. split; [|apply H0]. intros text HT. destruct (HV _ _ text HT eq_refl eq_refl) as [[_ HX]|[_ [HX _]]]; lia. }
      destruct (sread_available 2 s1 ltac:(lia)) as [H3 H4]. rewrite HA in H3, H4. destruct (sread 2 s1) as [ex s2]. cbn [fst snd] in H3, H4.
      destruct r as [|c [|d r]].
      * right. split; [intros text HT; destruct (HV _ _ text HT eq_refl eq_refl) as [[HX _]|[_ [_ HX]]]; cbn [length] in HX; lia|].
        cbn in H3. subst ex. left. reflexivity.
      * right. split; [intros text HT; destruct (HV _ _ text HT eq_refl eq_refl) as [[HX _]|[_ [_ HX]]]; cbn [length] in HX; lia|].
        cbn in H3. subst ex. left. reflexivity.
      * assert (0 <= c < 256) as Bc by (apply HBr; cbn; tauto). assert (0 <= d < 256) as Bd by (apply HBr; cbn; tauto).
        assert (ex = [c; d]) as -> by (rewrite H3; cbn; now destruct r).
        assert (available s2 = r) as HA2.
        { destruct H4 as [H4|H4]; [rewrite !len_cons in H4; pose proof (len_nonneg _ r); lia|]. rewrite H4. cbn. now destruct r. }
        cbn [cells firstn map nth repeat app and_then cell_is cell obind].
        set (n := a8 + 256 * a9 + 65536 * c + 16777216 * d) in *. assert (0 <= n) as Hn by (unfold n; lia). assert (n < 2 ^ 32) as Hn2 by (unfold n; change (2 ^ 32) with 4294967296; lia).
        assert (a6 = 2) as -> by lia. assert (a7 = 0) as -> by lia. unfold s32_to_size. destruct (n <? 2147483648) eqn:EN.
        -- left. destruct (cut_exists n r Hn) as [text HT]. exists text. split.
           ++ rewrite El. apply (Text_v2 [a0; a1; a2; a3; a4; a5] a8 a9 c d r text eq_refl); [fold n; change (2 ^ 31) with 2147483648; lia|exact HT].
           ++ apply peek_rest; [exact Hn|]. rewrite HA2. exact HT.
        -- right. split.
           ++ intros text HT. clear - HT El EN. inversion HT; subst; do 6 (destruct six as [|? six]; [vm_compute in H; discriminate|]);
                (destruct six; [|unfold len in H; cbn [length] in H; lia]); cbn [app] in *.
              ** injection H1 as _ _ _ _ _ _ HX _. discriminate.
              ** injection H2 as _ _ _ _ _ _ -> -> -> -> _. change (2 ^ 31) with 2147483648 in *. unfold n in EN. lia.
           ++ right. exists AllocError. unfold u64.
              assert ((n - 4294967296) mod 18446744073709551616 = n - 4294967296 + 18446744073709551616) as HX.
              { change (2 ^ 32) with 4294967296 in Hn2. symmetry. apply (Z.mod_unique _ _ (-1)); lia. }
              match goal with |- context [?x >? mem v] => assert (x >? mem v = true) as -> end; [|reflexivity].
              change (2 ^ 63) with 9223372036854775808 in HM. try change (2 ^ 64) with 18446744073709551616. rewrite HX. lia.
Qed.
Lemma cut_unique n after t1 t2 : cut_to n after t1 -> cut_to n after t2 -> t1 = t2.
Proof.
  intros (k1 & H1 & L1) (k2 & H2 & L2). subst t1 t2. f_equal. rewrite len_app, len_zrepeat in L1, L2. unfold zrepeat. f_equal. lia.
Qed.
Lemma text_unique l t1 t2 : text_of l t1 -> text_of l t2 -> t1 = t2.
Proof.
  assert (forall (p q x y : bytes), len p = 6 -> len q = 6 -> p ++ x = q ++ y -> x = y) as HS.
  { intros p q x y Hp Hq HE. assert (zdrop 6 (p ++ x) = zdrop 6 (q ++ y)) as HZ by (now f_equal). rewrite !zdrop_app_exact in HZ by auto. exact HZ. }
  intros H1 H2. inversion H1 as [six a b r x E1 C1|six a b c d r x E1 L1 C1]; subst; inversion H2 as [six' a' b' r' x' E2 C2 EQ|six' a' b' c' d' r' x' E2 L2 C2 EQ]; subst.
  - apply HS in EQ; [|assumption|assumption]. cbn [app] in EQ. injection EQ as <- <- <-. eapply cut_unique; eassumption.
  - apply HS in EQ; [|assumption|assumption]. cbn [app] in EQ. discriminate.
  - apply HS in EQ; [|assumption|assumption]. cbn [app] in EQ. discriminate.
  - apply HS in EQ; [|assumption|assumption]. cbn [app] in EQ. injection EQ as <- <- <- <- <-. eapply cut_unique; eassumption.
Qed.

(** Every file: peek returns a header exactly when the file has a header text that means it,
    and reads out of bounds exactly when that text lacks its type code. *)
Theorem C65_files : forall v s g, dbg v = false -> prior_parses g -> bytes_ok (available s) -> mem v < 2 ^ 63 ->
  let peeked := fst (fst (peek v s g)) in
  (forall h, peeked = Ok h <->
     exists text fs, text_of (available s) text /\ len text <= mem v /\ header_read text fs /\ made fs header_uninit h) /\
  (peeked = Undef OutOfBounds <-> exists text, text_of (available s) text /\ len text <= mem v /\ code_missing text).
Proof.
  intros v s g HD HG HB HM peeked. unfold peeked. destruct (peek_text v s g (or_introl HD) HG HB HM) as [(text & HT & ->)|[HN HX]].
  - destruct (C65_header_text v g text HD HG) as (H1 & H2 & _). cbv zeta in H1, H2. destruct (len text >? mem v) eqn:EM.
    + split.
      * intros h. split; [discriminate|]. intros (t2 & fs & HT2 & HL & _). rewrite (text_unique _ _ _ HT2 HT) in HL. lia.
      * split; [discriminate|]. intros (t2 & HT2 & HL & _). rewrite (text_unique _ _ _ HT2 HT) in HL. lia.
    + split.
      * intros h. rewrite H1. split.
        -- intros (fs & HR & HMd). exists text, fs. split; [exact HT|]. split; [lia|auto].
        -- intros (t2 & fs & HT2 & _ & HR & HMd). rewrite (text_unique _ _ _ HT2 HT) in HR. eauto.
      * rewrite H2. split.
        -- intros [_ HC]. exists text. split; [exact HT|]. split; [lia|auto].
        -- intros (t2 & HT2 & _ & HC). rewrite (text_unique _ _ _ HT2 HT) in HC. auto.
  - split.
    + intros h. split; [destruct HX as [->|[e ->]]; discriminate|]. intros (t2 & fs & HT2 & _). exfalso. exact (HN _ HT2).
    + split; [destruct HX as [->|[e ->]]; discriminate|]. intros (t2 & HT2 & _). exfalso. exact (HN _ HT2).
Qed.
Print Assumptions C65_files.

(** Punctuation is ignored: this is taken for a 2 by 3 array of floats in Fortran order,
    whatever stands for the braces, opening quotes, colons and commas; the second dimension
    may even lack its comma. *)
Definition odd_text : bytes := str "[.descr';.<f4';.fortran_order'-Txyz;.shape' ;[2 3);}".
Example C65_case : exists fs, header_read odd_text fs /\
  made fs header_uninit (mk_header (Some FLOAT32) (Some LITTLE) (Some true) [2; 3] (Some 0)).
Proof.
  apply (C65_header_text (mk_env false false 1000) (zrepeat 0 65536, DTYPE_MAP) odd_text eq_refl prior_none).
  vm_compute. reflexivity.
Qed.
(** The undefined case, after a harmless entry; and a text with neither meaning. *)
Example C65_case_undefined : code_missing (str "{'shape': (3,), 'descr': ''}") /\ code_missing (str "{'descr") /\
  (forall fs h, header_read (str "{'descr': '<f4', }") fs -> made fs header_uninit h -> h = mk_header (Some FLOAT32) (Some LITTLE) None [] (Some 0)) /\
  (forall fs h, header_read (str "{ }") fs -> ~ made fs header_uninit h).
Proof.
  pose proof (fun t => C65_header_text (mk_env false false 1000) (zrepeat 0 65536, DTYPE_MAP) t eq_refl prior_none) as H. cbv zeta in H.
  split; [|split; [|split]].
  - apply (proj1 (proj2 (H _)) OutOfBounds). vm_compute. reflexivity.
  - apply (proj1 (proj2 (H _)) OutOfBounds). vm_compute. reflexivity.
  - intros fs h H1 H2. assert (fst (parse_dictionary (mk_env false false 1000) (str "{'descr': '<f4', }") (zrepeat 0 65536, DTYPE_MAP)) = Ok h) as E by (apply H; eauto).
    vm_compute in E. congruence.
  - intros fs h H1 H2. assert (fst (parse_dictionary (mk_env false false 1000) (str "{ }") (zrepeat 0 65536, DTYPE_MAP)) = Ok h) as E by (apply H; eauto).
    vm_compute in E. discriminate.
Qed.
(** Such a file: no magic string, version 2.0, and fewer bytes than it announces. *)
Example C65_case_file : exists text fs, text_of (str "ABCDEF" ++ [2; 0; 200; 0; 0; 0] ++ odd_text) text /\ len text <= 1000 /\
  header_read text fs /\ made fs header_uninit (mk_header (Some FLOAT32) (Some LITTLE) (Some true) [2; 3] (Some 0)).
Proof.
  pose proof (C65_files (mk_env false false 1000) (open_str (str "ABCDEF" ++ [2; 0; 200; 0; 0; 0] ++ odd_text)) (zrepeat 0 65536, DTYPE_MAP) eq_refl prior_none) as H.
  apply H; [|vm_compute; reflexivity|vm_compute; reflexivity].
  apply is_byteb_ok. vm_compute. reflexivity.
Qed.

(** Which files load as type [d], given what peek says: the header names [d] and an order, and
    the elements (counted modulo 2^64) fit in memory, whatever data follows. *)
Theorem C65_loads : forall v d s g, dbg v = false ->
  let peeked := fst (fst (peek v s g)) in
  let loaded := fst (fst (load v d s g)) in
  ((exists t, loaded = Ok t) <->
   exists h, peeked = Ok h /\ h_dtype h = Some d /\ h_fortran h <> None /\ (product (h_shape h) mod 2 ^ 64) * item_size d <= mem v) /\
  (forall h, peeked = Ok h -> (exists t, loaded = Ok t) \/
     (h_fortran h = None \/ h_dtype h = None) /\ loaded = Undef UninitRead \/
     loaded = Throw AllocError /\ (product (h_shape h) mod 2 ^ 64) * item_size d > mem v \/
     loaded = Throw RuntimeError /\ exists d', h_dtype h = Some d' /\ d' <> d) /\
  (forall h t, peeked = Ok h -> loaded = Ok t -> t_shape t = h_shape h /\ Some (t_fortran t) = h_fortran h /\ t_dtype t = d /\
     len (t_values t) = product (h_shape h) mod 2 ^ 64).
Proof.
  intros v d s g HD peeked loaded.
  assert (forall h, peeked = Ok h -> together h) as HT by (destruct (C55_arbitrary_bytes v d s g HD) as (_ & _ & _ & _ & _ & _ & _ & H & _); exact H).
  assert (forall t, loaded = Ok t -> t_size t = product (t_shape t) mod 2 ^ 64) as HS
    by (destruct (C55_arbitrary_bytes v d s g HD) as (_ & _ & _ & _ & _ & _ & _ & _ & H); intros t Ht; exact (proj2 (H t Ht))).
  unfold peeked, loaded, peek, load in *. clear peeked loaded. destruct (read_npy_header v s g) as [[o s1] g1]. cbn [fst] in *.
  destruct o as [h|e| |u]; cbn [fst].
  2:{ split; [split; [intros [? ?]; discriminate|intros (? & ? & _); discriminate]|]. split; intros; discriminate. }
  2:{ split; [split; [intros [? ?]; discriminate|intros (? & ? & _); discriminate]|]. split; intros; discriminate. }
  2:{ split; [split; [intros [? ?]; discriminate|intros (? & ? & _); discriminate]|]. split; intros; discriminate. }
  specialize (HT h eq_refl).
  destruct h as [hd he hf sh hm]. cbn [h_dtype h_endian h_fortran h_shape h_maxlen] in *.
  assert (hf = None \/ exists f, hf = Some f) as [->|[f ->]] by (destruct hf; eauto).
  { cbn [tensor_load field h_fortran obind fst]. unfold tensor_load. cbn [field h_fortran obind fst].
    split; [split; [intros [? ?]; discriminate|intros (? & [= <-] & _ & HX & _); cbn in HX; congruence]|].
    split; [intros h [= <-]; right; left; split; [left; reflexivity|reflexivity]|intros; discriminate]. }
  destruct (get_size sh * item_size d >? mem v) eqn:EM.
  { assert (fst (fst (let (o, s2) := tensor_load v d (mk_header hd he (Some f) sh hm) s1 in (o, s2, g1))) = Throw AllocError) as ->.
    { unfold tensor_load, make_tensor. cbn [field h_fortran h_shape obind]. rewrite EM. reflexivity. }
    split; [split; [intros [? ?]; discriminate|intros (? & [= <-] & _ & _ & HX); cbn [h_shape] in HX; rewrite <- get_size_product in HX; lia]|].
    split; [|intros; discriminate]. intros h [= <-]. right. right. left. cbn [h_shape]. split; [reflexivity|]. rewrite <- get_size_product. lia. }
  assert (hd = None \/ exists x, hd = Some x) as [->|[x ->]] by (destruct hd; eauto).
  { assert (fst (fst (let (o, s2) := tensor_load v d (mk_header None he (Some f) sh hm) s1 in (o, s2, g1))) = Undef UninitRead) as ->.
    { unfold tensor_load, make_tensor. cbn [field h_fortran h_shape h_dtype obind]. rewrite EM. reflexivity. }
    split; [split; [intros [? ?]; discriminate|intros (? & [= <-] & HX & _); discriminate]|].
    split; [|intros; discriminate]. intros h [= <-]. right. left. split; [right; reflexivity|reflexivity]. }
  destruct HT as [[HX _]|(_ & HE & HMx)]; [discriminate|]. destruct he as [e|]; [|contradiction]. destruct hm as [n|]; [|contradiction].
  assert (x = d \/ x <> d) as [->|HN] by (destruct x, d; auto; right; discriminate).
  - pose proof (tensor_load_complete v d e f sh n s1 ltac:(lia)) as HL. cbv zeta in HL. rewrite HL in *. cbn [fst] in *.
    split; [split; [intros _|intros _; eauto]|].
    + eexists. split; [reflexivity|]. cbn [h_dtype h_fortran h_shape]. split; [reflexivity|]. split; [discriminate|]. rewrite <- get_size_product. lia.
    + split; [intros; left; eauto|]. intros h t [= <-] HO. pose proof (HS t HO) as HSt. injection HO as <-. unfold t_size in HSt. cbn [t_shape t_fortran t_dtype t_values h_shape h_fortran] in *. auto.
  - assert (fst (fst (let (o, s2) := tensor_load v d (mk_header (Some x) (Some e) (Some f) sh (Some n)) s1 in (o, s2, g1))) = Throw RuntimeError) as ->.
    { unfold tensor_load, make_tensor. cbn [field h_fortran h_shape h_dtype obind]. rewrite EM. cbn [obind].
      assert (dtype_eqb x d = false) as -> by (destruct x, d; try reflexivity; contradiction). reflexivity. }
    split; [split; [intros [? ?]; discriminate|intros (? & [= <-] & HX & _); cbn in HX; congruence]|].
    split; [|intros; discriminate]. intros h [= <-]. right. right. right. split; [reflexivity|]. cbn. eauto.
Qed.
Print Assumptions C65_loads.
Example C65_case_loads : exists t, fst (fst (load (mk_env false false 1000) FLOAT32
  (open_str (str "ABCDEF" ++ [2; 0; 200; 0; 0; 0] ++ odd_text)) (zrepeat 0 65536, DTYPE_MAP))) = Ok t.
Proof.
  apply (C65_loads (mk_env false false 1000) FLOAT32 _ _ eq_refl).
  eexists. split; [vm_compute; reflexivity|]. cbn. split; [reflexivity|]. split; [discriminate|]. vm_compute. discriminate.
Qed.

(** *** C16, for every text *)
(** Whatever the text, in any build: if a header is returned, the text was read as a list of
    entries, and each field is defined exactly when one of them was about it. *)
Lemma made_fields fs h h' : made fs h h' ->
  (h_dtype h' <> None <-> h_dtype h <> None \/ exists c, In (FDescr c) fs) /\
  (h_endian h' <> None <-> h_endian h <> None \/ exists c, In (FDescr c) fs) /\
  (h_maxlen h' <> None <-> h_maxlen h <> None \/ exists c, In (FDescr c) fs) /\
  (h_fortran h' <> None <-> h_fortran h <> None \/ exists b, In (FOrder b) fs) /\
  (~ (exists l, In (FShape l) fs) -> h_shape h' = h_shape h).
Proof.
  induction 1 as [h|c d e n t h h' Hd HS (A1 & A2 & A3 & A4 & A5)|b t h h' HS (A1 & A2 & A3 & A4 & A5)
                 |l0 t h h' HS (A1 & A2 & A3 & A4 & A5)]; cbn [In h_dtype h_endian h_fortran h_shape h_maxlen] in *.
  - firstorder.
  - split; [rewrite A1; split; [intros _; right; exists c; now left|intros _; left; discriminate]|].
    split; [rewrite A2; split; [intros _; right; exists c; now left|intros _; left; discriminate]|].
    split; [rewrite A3; split; [intros _; right; exists c; now left|intros _; left; discriminate]|].
    split; [rewrite A4|intros HN; apply A5; intros (l & HI); apply HN; exists l; now right].
    split; (intros [H|(b & H)]; [now left|right; exists b]); [now right|]. destruct H as [H|H]; [discriminate H|exact H].
  - assert (forall P, (P \/ exists c, In (FDescr c) t) <-> (P \/ exists c, FOrder b = FDescr c \/ In (FDescr c) t)) as HX.
    { intros P. split; (intros [H|(c & H)]; [now left|right; exists c]); [now right|]. destruct H as [H|H]; [discriminate H|exact H]. }
    split; [now rewrite A1, HX|]. split; [now rewrite A2, HX|]. split; [now rewrite A3, HX|].
    split; [rewrite A4; split; [intros _; right; exists b; now left|intros _; left; discriminate]|].
    intros HN; apply A5; intros (l & HI); apply HN; exists l; now right.
  - assert (forall P, (P \/ exists c, In (FDescr c) t) <-> (P \/ exists c, FShape l0 = FDescr c \/ In (FDescr c) t)) as HX.
    { intros P. split; (intros [H|(c & H)]; [now left|right; exists c]); [now right|]. destruct H as [H|H]; [discriminate H|exact H]. }
    split; [now rewrite A1, HX|]. split; [now rewrite A2, HX|]. split; [now rewrite A3, HX|].
    split; [rewrite A4|intros HN; exfalso; apply HN; exists l0; now left].
    split; (intros [H|(b & H)]; [now left|right; exists b]); [now right|]. destruct H as [H|H]; [discriminate H|exact H].
Qed.
Theorem C16_any_text : forall v g text h, prior_parses g -> fst (parse_dictionary v text g) = Ok h ->
  exists fs, header_read text fs /\
    (h_dtype h <> None <-> exists c, In (FDescr c) fs) /\
    (h_endian h <> None <-> exists c, In (FDescr c) fs) /\
    (h_maxlen h <> None <-> exists c, In (FDescr c) fs) /\
    (h_fortran h <> None <-> exists b, In (FOrder b) fs) /\
    (~ (exists l, In (FShape l) fs) -> h_shape h = []) /\
    (* using such a header *)
    (forall d s, ~ (exists b, In (FOrder b) fs) -> fst (tensor_load v d h s) = Undef UninitRead) /\
    (forall d s, (exists b, In (FOrder b) fs) -> ~ (exists c, In (FDescr c) fs) ->
       fst (tensor_load v d h s) = Undef UninitRead \/ fst (tensor_load v d h s) = Throw AllocError).
Proof.
  intros v g text h HG E.
  assert (fst (parse_dictionary (release v) text g) = Ok h) as ER by (rewrite parse_dictionary_release by (rewrite E; exact I); exact E).
  destruct (C65_header_text (release v) g text eq_refl HG) as (H1 & _). apply H1 in ER as (fs & HR & HM). exists fs. split; [exact HR|].
  destruct (made_fields _ _ _ HM) as (A1 & A2 & A3 & A4 & A5). cbn [header_uninit h_dtype h_endian h_maxlen h_fortran h_shape] in *.
  assert (forall P : Prop, (None <> None :> option dtype) \/ P <-> P) as N1 by (intros P; split; [intros [H|H]; [now destruct H|exact H]|now right]).
  assert (forall P : Prop, (None <> None :> option endian) \/ P <-> P) as N2 by (intros P; split; [intros [H|H]; [now destruct H|exact H]|now right]).
  assert (forall P : Prop, (None <> None :> option Z) \/ P <-> P) as N3 by (intros P; split; [intros [H|H]; [now destruct H|exact H]|now right]).
  assert (forall P : Prop, (None <> None :> option bool) \/ P <-> P) as N4 by (intros P; split; [intros [H|H]; [now destruct H|exact H]|now right]).
  rewrite N1 in A1. rewrite N2 in A2. rewrite N3 in A3. rewrite N4 in A4.
  split; [exact A1|]. split; [exact A2|]. split; [exact A3|]. split; [exact A4|]. split; [exact A5|]. split.
  - intros d s HN. unfold tensor_load. destruct (h_fortran h); [exfalso; apply HN; apply A4; discriminate|reflexivity].
  - intros d s HO HN. unfold tensor_load. destruct (h_fortran h) as [b|]; [|exfalso; apply (proj2 A4 HO); reflexivity].
    destruct (h_dtype h) as [d'|]; [exfalso; apply HN; apply A1; discriminate|]. cbn [field obind].
    unfold make_tensor. destruct (get_size (h_shape h) * item_size d >? mem v); cbn [obind fst]; auto.
Qed.
Print Assumptions C16_any_text.
(** an odd text with no type: the entry is found, the type is undefined *)
Example C16_case_any : exists h, fst (parse_dictionary (mk_env false false 1000) (str "x?shape'?<3)?}") (zrepeat 0 65536, DTYPE_MAP)) = Ok h /\
  h_shape h = [3] /\ h_dtype h = None /\ h_fortran h = None.
Proof. eexists. split; [vm_compute; reflexivity|]. auto. Qed.
