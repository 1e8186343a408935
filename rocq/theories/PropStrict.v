(** C66: which header text, and which files, a debug build accepts. *)
From Coq Require Import String ZArith List Bool Lia.
From Verif Require Import Base Stream BaseFacts Dtype Values Spec ValuesFacts PropValues Header HeaderFacts ParserInv ParserRel Tensor Npy
  PropHeader TensorFacts SaveFacts CutFacts PropCut LenientSpec LenientFacts LenientText PropLenient StrictSpec StrictFacts StrictText.
Import ListNotations.
Open Scope Z_scope.

(** A debug build returns a header exactly for text with the right punctuation, and it is the
    header that the entries make. *)
Theorem C66_debug_text : forall v g text h, dbg v = true -> prior_parses g ->
  fst (parse_dictionary v text g) = Ok h <-> exists fs, strict_header text fs /\ made fs header_uninit h.
Proof.
  intros v g text h HD HG. rewrite parse_strict by (auto; now apply prior_map_ok). split.
  - destruct (s_char 123 (Some text)) as [o|?| |?] eqn:EC; cbn [obind]; try discriminate. apply s_char_ok in EC; [|lia].
    destruct EC as (body & [= ->] & ->). intros HE. apply s_entries_ok in HE; [|cbn [length]; lia]. destruct HE as (fs & r & HE & HC & HM).
    exists fs. split; [|exact HM]. exists body, r. auto.
  - intros (fs & (body & r & -> & HE & HC) & HM). cbn [s_char]. change (123 =? -1) with false. rewrite Z.eqb_refl. cbv iota. cbn [obind].
    apply s_entries_ok; [cbn [length]; lia|]. eauto.
Qed.
Print Assumptions C66_debug_text.

(** Text that a release build takes for a header: a debug build takes it for the same header if
    its punctuation is right, and stops with a failed assertion if not; nothing undefined. *)
Theorem C66_debug_or_release : forall host_is_big memory g text h, prior_parses g -> bytes_ok text ->
  let debug := fst (parse_dictionary (mk_env host_is_big true memory) text g) in
  let rel := fst (parse_dictionary (mk_env host_is_big false memory) text g) in
  rel = Ok h ->
  ((exists fs, strict_header text fs /\ made fs header_uninit h) /\ debug = Ok h) \/
  ((forall fs h', strict_header text fs -> ~ made fs header_uninit h') /\ debug = AssertFail).
Proof.
  intros hb mm g text h HG HB debug rel HR.
  assert (debug = Ok h \/ debug = AssertFail) as HX.
  { unfold debug, rel in *. rewrite parse_strict by (auto; now apply prior_map_ok). rewrite parse_text in HR by (auto; now apply prior_map_ok).
    assert (plain (Some text)) as HP by (cbn [plain]; unfold bytes_ok in HB; eapply Forall_impl; [|exact HB]; intros a Ha; unfold is_byte in Ha; lia).
    destruct (beside_char 123 (Some text) HP) as [[-> HP2]|[->|[-> EN]]]; cbn [obind].
    - now apply beside_entries.
    - now right.
    - rewrite EN in HR. exfalso. exact (f_entries_lost _ _ _ HR). }
  destruct HX as [HX|HX]; [left|right]; (split; [|exact HX]).
  - apply (C66_debug_text (mk_env hb true mm) g text h eq_refl HG). exact HX.
  - intros fs h' H1 H2. assert (debug = Ok h') as HE by (apply C66_debug_text; eauto). congruence.
Qed.
Print Assumptions C66_debug_or_release.

Lemma magic_needed l : check_magic (cells 10 (ztake 10 l)) 0 magic = Ok tt -> ztake 6 l = magic.
Proof.
  destruct l as [|z l]; [discriminate|]. destruct l as [|z0 l].
  { cbn. destruct (z =? 147); discriminate. }
  destruct l as [|z1 l].
  { cbn. destruct (z =? 147); [|discriminate]. destruct (z0 =? 78); discriminate. }
  destruct l as [|z2 l].
  { cbn. destruct (z =? 147); [|discriminate]. destruct (z0 =? 78); [|discriminate]. destruct (z1 =? 85); discriminate. }
  destruct l as [|z3 l].
  { cbn. destruct (z =? 147); [|discriminate]. destruct (z0 =? 78); [|discriminate]. destruct (z1 =? 85); [|discriminate]. destruct (z2 =? 77); discriminate. }
  destruct l as [|z4 l].
  { cbn. destruct (z =? 147); [|discriminate]. destruct (z0 =? 78); [|discriminate]. destruct (z1 =? 85); [|discriminate]. destruct (z2 =? 77); [|discriminate]. destruct (z3 =? 80); discriminate. }
  replace (ztake 10 (z :: z0 :: z1 :: z2 :: z3 :: z4 :: l)) with (z :: z0 :: z1 :: z2 :: z3 :: z4 :: ztake 4 l) by reflexivity.
  replace (ztake 6 (z :: z0 :: z1 :: z2 :: z3 :: z4 :: l)) with [z; z0; z1; z2; z3; z4] by (cbn; now destruct l).
  unfold magic. cbn [cells firstn map nth repeat app check_magic cell obind].
  destruct (z =? 147) eqn:E0; cbn [obind]; [|discriminate]. destruct (z0 =? 78) eqn:E1; cbn [obind]; [|discriminate].
  destruct (z1 =? 85) eqn:E2; cbn [obind]; [|discriminate]. destruct (z2 =? 77) eqn:E3; cbn [obind]; [|discriminate].
  destruct (z3 =? 80) eqn:E4; cbn [obind]; [|discriminate]. destruct (z4 =? 89) eqn:E5; cbn [obind]; [|discriminate].
  intros _. repeat f_equal; lia.
Qed.
(** Every file: a debug build's peek returns a header exactly when the file starts with the
    magic string and its header text has the right punctuation. *)
Theorem C66_files : forall v s g h, dbg v = true -> prior_parses g -> bytes_ok (available s) -> mem v < 2 ^ 63 ->
  fst (fst (peek v s g)) = Ok h <->
  ztake 6 (available s) = magic /\
  exists text fs, text_of (available s) text /\ len text <= mem v /\ strict_header text fs /\ made fs header_uninit h.
Proof.
  intros v s g h HD HG HB HM. split.
  - intros HP. assert (ztake 6 (available s) = magic) as HMg.
    { revert HP. unfold peek, read_npy_header. rewrite HD. cbv zeta.
      destruct (sread_available STATIC_HEADER_LENGTH s ltac:(unfold STATIC_HEADER_LENGTH; lia)) as [H1 _]. unfold STATIC_HEADER_LENGTH in *.
      destruct (sread 10 s) as [got s1]. cbn [fst] in H1. intros HP. apply magic_needed. rewrite <- H1. unfold magic.
      destruct (check_magic (cells 10 got) 0 [147; 78; 85; 77; 80; 89]) as [[]|?| |?]; [reflexivity|discriminate HP|discriminate HP|discriminate HP]. }
    split; [exact HMg|]. destruct (peek_text v s g (or_intror HMg) HG HB HM) as [(text & HT & E)|[_ [E|[e E]]]]; rewrite E in HP; try discriminate.
    destruct (len text >? mem v) eqn:EL; [discriminate|]. apply C66_debug_text in HP; [|exact HD|exact HG]. destruct HP as (fs & HS & HMd).
    exists text, fs. split; [exact HT|]. split; [lia|auto].
  - intros (HMg & text & fs & HT & HL & HS & HMd).
    destruct (peek_text v s g (or_intror HMg) HG HB HM) as [(text' & HT' & ->)|[HN _]]; [|exfalso; exact (HN _ HT)].
    rewrite (text_unique _ _ _ HT' HT). assert (len text >? mem v = false) as -> by lia. apply C66_debug_text; eauto.
Qed.
Print Assumptions C66_files.

(** Which files a debug build loads, given what peek says; and once peek accepts the header,
    debug and release builds load the same. *)
Theorem C66_loads : forall host_is_big memory d s g,
  let debug := mk_env host_is_big true memory in
  let rel := mk_env host_is_big false memory in
  let peeked := fst (fst (peek debug s g)) in
  ((exists t, fst (fst (load debug d s g)) = Ok t) <->
   exists h, peeked = Ok h /\ h_dtype h = Some d /\ h_fortran h <> None /\ (product (h_shape h) mod 2 ^ 64) * item_size d <= memory) /\
  (forall h, peeked = Ok h -> load debug d s g = load rel d s g).
Proof.
  intros hb mm d s g debug rel peeked.
  assert (forall h, peeked = Ok h -> peek rel s g = peek debug s g /\ load debug d s g = load rel d s g) as HE.
  { intros h HP. unfold peeked, peek in *. assert (read_npy_header rel s g = read_npy_header debug s g) as HR.
    { apply (read_npy_header_release debug). unfold peek in HP. rewrite HP. exact I. }
    split; [exact HR|]. unfold load. rewrite HR. destruct (read_npy_header debug s g) as [[[h1|?| |?] s1] g1]; try reflexivity.
    change rel with (release debug). now rewrite tensor_load_release. }
  split; [|intros h HP; exact (proj2 (HE h HP))].
  destruct (C65_loads rel d s g eq_refl) as (H1 & _). cbv zeta in H1. split.
  - intros [t Ht]. assert (exists h, peeked = Ok h) as [h HP].
    { unfold peeked, peek, load in *. destruct (read_npy_header debug s g) as [[[h1|?| |?] s1] g1]; try discriminate. cbn. eauto. }
    destruct (HE h HP) as [E1 E2]. rewrite E2 in Ht. destruct (proj1 H1 (ex_intro _ t Ht)) as (h' & HP' & HX). rewrite E1 in HP'. fold peeked in HP'.
    exists h'. split; [exact HP'|exact HX].
  - intros (h & HP & HX). destruct (HE h HP) as [E1 E2]. rewrite E2. apply H1. exists h. rewrite E1. split; [exact HP|exact HX].
Qed.
Print Assumptions C66_loads.

(** Text with the right punctuation, keys in another order and odd blanks; and the text of C65
    on which only a debug build stops. *)
Definition strict_case : bytes := str "{  'shape' :  (2, 3)," ++ [10; 9] ++ str "'fortran_order':True, 'descr': '<f4',}  ".
Example C66_case : exists fs, strict_header strict_case fs /\
  made fs header_uninit (mk_header (Some FLOAT32) (Some LITTLE) (Some true) [2; 3] (Some 0)).
Proof. apply (C66_debug_text (mk_env false true 1000) (zrepeat 0 65536, DTYPE_MAP) strict_case _ eq_refl prior_none). vm_compute. reflexivity. Qed.
Example C66_case_stops :
  let g := (zrepeat 0 65536, DTYPE_MAP) in
  fst (parse_dictionary (mk_env false false 1000) odd_text g) = Ok (mk_header (Some FLOAT32) (Some LITTLE) (Some true) [2; 3] (Some 0)) /\
  fst (parse_dictionary (mk_env false true 1000) odd_text g) = AssertFail /\ (forall fs h, strict_header odd_text fs -> ~ made fs header_uninit h).
Proof.
  intros g. split; [vm_compute; reflexivity|]. split; [vm_compute; reflexivity|]. intros fs h HS HM.
  assert (fst (parse_dictionary (mk_env false true 1000) odd_text g) = Ok h) as E by (apply C66_debug_text; [reflexivity|exact prior_none|eauto]).
  vm_compute in E. discriminate.
Qed.
(** A file; with another first byte a debug build does not take it. *)
Example C66_case_file : forall six, six = magic \/ six = str "ABCDEF" ->
  let file := open_str (six ++ [1; 0; 63; 0] ++ strict_case) in
  fst (fst (peek (mk_env false true 1000) file (zrepeat 0 65536, DTYPE_MAP))) = Ok (mk_header (Some FLOAT32) (Some LITTLE) (Some true) [2; 3] (Some 0)) <->
  six = magic.
Proof.
  intros six H file. destruct H as [->| ->]; unfold file.
  - split; [reflexivity|]. intros _. vm_compute. reflexivity.
  - split; [|intros E; vm_compute in E; discriminate]. intros E. vm_compute in E. discriminate.
Qed.
