(** Properties C09-C17: NPY headers. *)
From Coq Require Import String ZArith List Bool Lia Permutation.
From Verif Require Import Base Stream BaseFacts Dtype Values Spec ValuesFacts Header HeaderFacts
  ParseFacts ParserInv ParserRel NpyFacts Tensor Npy.
Import ListNotations.
Open Scope Z_scope.

(** *** C09 *)
Theorem C09_headers_well_formed : forall code fortran shape,
  shape_ok shape -> len (python_dict code fortran shape) <= 245 ->
  exists lo hi spaces,
    write_npy_header code fortran shape
      = ([147; 78; 85; 77; 80; 89] ++ [1; 0] ++ [lo; hi])
        ++ python_dict code fortran shape ++ spaces ++ [10] /\
    Forall (fun c => c = 32) spaces /\ len spaces < 64 /\
    is_byte lo /\ is_byte hi /\
    lo + 256 * hi = len (python_dict code fortran shape ++ spaces ++ [10]) /\
    len (write_npy_header code fortran shape) mod 64 = 0.
Proof.
  intros code f sh Hs HD.
  destruct (write_npy_header_shape code f sh) as (pad & Hp & Hmod & HW).
  rewrite (dictionary_python _ _ _ Hs) in HW, Hmod.
  set (D := python_dict code f sh) in *. pose proof (len_nonneg _ D) as HD0.
  assert (len D + pad + 1 < 256) as HB.
  { apply Z.mod_divide in Hmod; [|lia]. destruct Hmod as [k Hk]. lia. }
  exists (u8 (len D + pad + 1)), 0, (zrepeat 32 pad).
  assert (u8 (len D + pad + 1) = len D + pad + 1) as HU by (unfold u8; apply Z.mod_small; lia).
  split; [exact HW|]. split; [unfold zrepeat; apply Forall_forall; intros x Hx; now apply repeat_spec in Hx|].
  unfold is_byte. rewrite HW, HU. lens. repeat split; try lia.
  match goal with |- ?x mod 64 = 0 => replace x with (10 + (len D + pad + 1)) by lia end. exact Hmod.
Qed.
Print Assumptions C09_headers_well_formed.
Example C09_case : shape_ok [2; 3] /\ len (python_dict (str "<f4") false [2; 3]) <= 245 /\
  write_npy_header (str "<f4") false [2; 3] =
  [147; 78; 85; 77; 80; 89; 1; 0; 118; 0] ++ str "{'descr': '<f4', 'fortran_order': False, 'shape': (2, 3), }"
  ++ zrepeat 32 58 ++ [10].
Proof. split; [repeat constructor; unfold max64; lia|]. split; [vm_compute; discriminate|]. vm_compute. reflexivity. Qed.

(** *** C10.  Both what was asked to be written and every numpy 'descr' string. *)
Theorem C10_header_round_trip : forall v s g code d e n fortran shape tail,
  prior_parses g -> good s = true -> 246 <= mem v ->
  descr_denotes code d e n -> shape_ok shape ->
  len (python_dict code fortran shape) <= 245 ->
  rest s = write_npy_header code fortran shape ++ tail ->
  exists g', read_npy_header v s g =
    (Ok (mk_header (Some d) (Some e) (Some fortran) shape (Some n)), set_rest s tail, g') /\ prior_parses g'.
Proof.
  intros v s g code d e n f sh tail Hg G HM Hd Hs HD HR.
  destruct (read_header_written v s g code d e n f sh tail (prior_map_ok _ Hg) G Hd Hs HD HM HR)
    as (g' & H & body & ->).
  eexists. split; [exact H|]. now constructor.
Qed.
Print Assumptions C10_header_round_trip.
(** The strings libnpy writes are such codes. *)
Theorem C10_written_codes : forall v d e, d <> UNICODE_STRING ->
  exists code, to_dtype v d e = Ok code /\
    descr_denotes code d (recorded_order d (means_big (host_big v) e)) 0.
Proof.
  intros v d e Hd. exists (numpy_descr d (means_big (host_big v) e)). split; [|now constructor].
  unfold to_dtype, native_endian.
  destruct d; try congruence; destruct e; cbn [endian_eqb means_big]; destruct (host_big v); vm_compute; reflexivity.
Qed.
Print Assumptions C10_written_codes.
Example C10_case : descr_denotes (str ">U12") UNICODE_STRING BIG 12 /\
  descr_denotes (str "<c16") COMPLEX128 LITTLE 0 /\ prior_parses (zrepeat 0 65536, DTYPE_MAP).
Proof.
  split; [apply (denotes_string true 12); lia|]. split; [apply (denotes_fixed COMPLEX128 false); discriminate|].
  constructor.
Qed.

(** *** C11 *)
Lemma join_spell_len l : shape_ok l -> l <> [] -> len (join_comma (map spell l)) <= 22 * len l - 2.
Proof.
  induction 1 as [|z l Hz Hl IH]; [congruence|]. intros _.
  cbn [map]. pose proof (dec_len_u64 z Hz).
  destruct l as [|y l]; cbn [map] in *.
  - cbn [join_comma]. rewrite spell_pos by lia. lens. lia.
  - rewrite join_comma_cons. rewrite (spell_pos z) by lia. lens.
    change (len (str ", ")) with 2. specialize (IH ltac:(discriminate)). lens. lia.
Qed.
Lemma dict_len code f sh : len (python_dict code f sh)
  = len code + (if f then 4 else 5) + len (tuple_body sh) + 47.
Proof.
  unfold python_dict, dict_text, standard_entries, entry_text.
  cbn [flat_map before_key before_colon after_colon after_comma value key_text value_text].
  destruct f; lens.
  all: repeat match goal with |- context [len (str ?s)] => let x := eval vm_compute in (len (str s)) in
     change (len (str s)) with x end.
  all: lia.
Qed.
Lemma denotes_len code d e n : descr_denotes code d e n -> len code <= 12.
Proof.
  intros [d' big Hd|big n' Hn].
  - destruct d', big; vm_compute; discriminate.
  - lens. assert (len (dec n') <= 10) by (apply dec_len_aux; lia).
    assert (len (if big then str ">U" else str "<U") = 2) by (destruct big; reflexivity). lia.
Qed.
Lemma tuple_len l : shape_ok l -> l <> [] -> len (tuple_body l) <= 22 * len l - 1.
Proof.
  intros H Hn. unfold tuple_body. lens. destruct l as [|z [|y l]]; [congruence| |].
  - inversion H; subst. cbn [map join_comma length Nat.eqb]. rewrite spell_pos by lia.
    pose proof (dec_len_u64 z ltac:(assumption)). lens. change (len (str ",")) with 1. lia.
  - change (length (z :: y :: l) =? 1)%nat with false. cbv iota.
    inversion H; subst. cbn [map]. rewrite join_comma_cons, (spell_pos z) by lia. lens.
    pose proof (dec_len_u64 z ltac:(assumption)).
    pose proof (join_spell_len (y :: l) ltac:(assumption) ltac:(discriminate)) as HJ. cbn [map] in HJ. lens.
    change (len (str ", ")) with 2. lia.
Qed.

Theorem C11_eight_dimensions_fit : forall code d e n fortran shape,
  descr_denotes code d e n -> shape_ok shape -> (length shape <= 8)%nat ->
  len (python_dict code fortran shape) <= 245.
Proof.
  intros code d e n f sh Hd Hs HL. rewrite dict_len. pose proof (denotes_len _ _ _ _ Hd).
  assert (len (tuple_body sh) <= 175).
  { destruct sh as [|z sh]; [vm_compute; discriminate|].
    pose proof (tuple_len (z :: sh) Hs ltac:(discriminate)). unfold len in *. lia. }
  destruct f; lia.
Qed.
Print Assumptions C11_eight_dimensions_fit.

(** Beyond 245 characters the length recorded in the file is not the length of what
    follows, and a reader that starts at the file's beginning never ends up at the
    first data byte. *)
Theorem C11_longer_headers_are_corrupt : forall code fortran shape,
  shape_ok shape -> len (python_dict code fortran shape) > 245 ->
  (exists lo hi body, write_npy_header code fortran shape
      = [147; 78; 85; 77; 80; 89; 1; 0; lo; hi] ++ body /\ lo + 256 * hi <> len body) /\
  (forall v s g data o s' g', good s = true ->
     rest s = write_npy_header code fortran shape ++ data ->
     read_npy_header v s g = (o, s', g') -> rest s' <> data).
Proof.
  intros code f sh Hs HD.
  destruct (write_npy_header_shape code f sh) as (pad & Hp & Hmod & HW).
  rewrite (dictionary_python _ _ _ Hs) in HW, Hmod.
  set (D := python_dict code f sh) in *.
  set (body := D ++ zrepeat 32 pad ++ [10]) in *.
  assert (len body = len D + pad + 1) as HB by (unfold body; lens; lia). clearbody body.
  assert (256 <= len body) as HB2.
  { apply Z.mod_divide in Hmod; [|lia]. destruct Hmod as [k Hk]. lia. }
  assert (0 <= u8 (len D + pad + 1) < 256) as HU by (apply Z.mod_pos_bound; lia).
  split.
  - exists (u8 (len D + pad + 1)), 0, body. split; [exact HW|]. lia.
  - intros v s g data o s' g' G HR H. unfold read_npy_header in H.
    assert (sread STATIC_HEADER_LENGTH s = ([147; 78; 85; 77; 80; 89; 1; 0; u8 (len D + pad + 1); 0], set_rest s (body ++ data))) as E.
    { apply (sread_app s [147; 78; 85; 77; 80; 89; 1; 0; u8 (len D + pad + 1); 0] (body ++ data) G).
      rewrite HR, HW. now rewrite <- app_assoc. }
    rewrite E in H.
    match type of H with context [if dbg v then ?c else _] => replace (if dbg v then c else Ok tt) with (@Ok unit tt) in H
      by (destruct (dbg v); reflexivity) end.
    match type of H with context [cells 10 ?l] => change (cells 10 l) with (map Some l) in H end.
    cbn [obind and_then cell_is cell map nth Z.eqb Pos.eqb] in H.
    rewrite Z.mul_0_r, Z.add_0_r in H. set (lo := u8 (len D + pad + 1)) in *.
    intros Hd. apply (f_equal (@len Z)) in Hd.
    destruct (lo >? mem v).
    + injection H as <- <- <-. cbn [rest set_rest] in Hd. rewrite len_app in Hd. lia.
    + unfold sread in H. change (good (set_rest s (body ++ data))) with (good s) in H. rewrite G in H.
      cbn [rest set_rest] in H.
      assert (rest s' = zdrop lo (body ++ data)) as HR2.
      { destruct (len (ztake lo (body ++ data)) <? lo).
        - destruct (parse_dictionary v _ g). injection H as <- <- <-. reflexivity.
        - destruct (parse_dictionary v _ g). injection H as <- <- <-. reflexivity. }
      rewrite HR2, len_zdrop, len_app in Hd. pose proof (len_nonneg _ data). lia.
Qed.
Print Assumptions C11_longer_headers_are_corrupt.
(** Such shapes exist: nine dimensions suffice. *)
Example C11_case : let shape := repeat 18446744073709551615 9 in
  shape_ok shape /\ len (python_dict (str "<f4") false shape) > 245.
Proof. split; [repeat constructor; unfold max64; lia|]. vm_compute. reflexivity. Qed.

(** *** C12 *)
Theorem C12_parsing_terminates : forall v text g,
  fst (parse_dictionary v text g) <> Undef OutOfFuel /\
  (forall extra p q, p = mk_pst (open_str text) (fst g) (snd g) -> p_char v 123 p = (Ok tt, q) ->
     p_entries v (S (length text) + extra) header_uninit q = p_entries v (S (length text)) header_uninit q) /\
  (forall t, parse_shape t <> Undef OutOfFuel).
Proof.
  intros v text g. split; [apply parse_dictionary_safe|]. split.
  - intros extra p q -> E. apply entries_more_fuel. apply entries_safe.
    destruct (safe_char v 123 (mk_pst (open_str text) (fst g) (snd g))) as [[H _] _]. rewrite E in H.
    unfold left_ in *. cbn in *. lia.
  - intros t. destruct (parse_shape_total t) as [l ->]. discriminate.
Qed.
Print Assumptions C12_parsing_terminates.
(** Garbage does not hang the release build. *)
Example C12_case : fst (parse_dictionary (mk_env false false 1000) (str "{'descr'zzzz")
  (zrepeat 0 65536, DTYPE_MAP)) <> Undef OutOfFuel.
Proof. apply C12_parsing_terminates. Qed.

(** *** C13 *)
Theorem C13_key_order_and_blanks_ignored : forall v g es tail code d e n fortran shape,
  prior_parses g -> Forall layout_ok es ->
  Permutation (map value es) [FDescr code; FOrder fortran; FShape shape] ->
  descr_denotes code d e n -> shape_ok shape -> len (tuple_body shape) < 65535 ->
  fst (parse_dictionary v (dict_text es tail) g)
    = Ok (mk_header (Some d) (Some e) (Some fortran) shape (Some n)).
Proof.
  intros v g es tail code d e n f sh Hg HL HP Hd Hs HT.
  assert (Forall field_ok (map value es)) as HF.
  { eapply Permutation_Forall; [symmetry; exact HP|]. repeat constructor; cbn [field_ok]; eauto. }
  rewrite Forall_map in HF.
  destruct (parse_dictionary_text v es tail g HL HF (prior_map_ok _ Hg)) as (h & g' & H1 & _ & H2).
  rewrite H1. cbn [fst]. f_equal. revert H2. generalize dependent (map value es). intros l HP HS.
  assert (forall x y z : field_value, x <> y -> y <> z -> x <> z -> forall m, Permutation m [x; y; z] ->
    m = [x;y;z] \/ m = [x;z;y] \/ m = [y;x;z] \/ m = [y;z;x] \/ m = [z;x;y] \/ m = [z;y;x]) as H6.
  { intros x y z Hxy Hyz Hxz m HPm. pose proof (Permutation_length HPm) as HLm.
    destruct m as [|a [|b [|c [|]]]]; try discriminate. symmetry in HPm.
    assert (In a [x; y; z]) as Ia by (eapply Permutation_in; [symmetry; exact HPm|cbn; auto]).
    destruct Ia as [<-|[<-|[<-|[]]]].
    - apply Permutation_cons_inv in HPm. apply Permutation_length_2_inv in HPm. intuition congruence.
    - assert (Permutation [y; x; z] (y :: b :: [c])) as HQ by (etransitivity; [apply perm_swap|exact HPm]).
      apply Permutation_cons_inv in HQ. apply Permutation_length_2_inv in HQ. intuition congruence.
    - assert (Permutation [z; x; y] (z :: b :: [c])) as HQ
        by (etransitivity; [apply (Permutation_app_comm [z] [x; y])|exact HPm]).
      apply Permutation_cons_inv in HQ. apply Permutation_length_2_inv in HQ. intuition congruence. }
  assert (forall h0 hh, sets l h0 hh -> hh = mk_header (Some d) (Some e) (Some f) sh (Some n)) as HH; [|eauto].
  clear H1 HS h g' HF.
  apply H6 in HP; [|discriminate|discriminate|discriminate].
  intros h0 hh HS.
  repeat match goal with
  | H : _ \/ _ |- _ => destruct H
  end; subst l;
  repeat match goal with
  | H : sets (FDescr _ :: _) _ _ |- _ => inversion H as [|? d' e' n' ? ? ? Hd' ?| |]; subst; clear H;
      destruct (denotes_fun _ _ _ _ _ _ _ Hd Hd') as (<- & <- & <-)
  | H : sets (FOrder _ :: _) _ _ |- _ => inversion H; subst; clear H
  | H : sets (FShape _ :: _) _ _ |- _ => inversion H; subst; clear H
  | H : sets [] _ _ |- _ => inversion H; subst; clear H
  end; cbn [h_dtype h_endian h_fortran h_shape h_maxlen]; now rewrite read_dims_ok.
Qed.
Print Assumptions C13_key_order_and_blanks_ignored.
Example C13_case :
  let es := [mk_dict_entry (str "  ") [] (str " ") [] (FShape [5; 7]);
             mk_dict_entry [] (str " ") [10; 9] (str "  ") (FDescr (str "<i2"));
             mk_dict_entry [] [] [] [] (FOrder true)] in
  dict_text es [10] = str "{  'shape': (5, 7),'descr' :" ++ [10; 9] ++ str "'<i2',  'fortran_order':True,}" ++ [10] /\
  Forall layout_ok es /\ Permutation (map value es) [FDescr (str "<i2"); FOrder true; FShape [5; 7]].
Proof.
  split; [vm_compute; reflexivity|]. split.
  - repeat constructor; cbn; unfold blank; repeat constructor; auto; lia.
  - cbn. apply (Permutation_app_comm [FShape [5; 7]] [_; _]).
Qed.

(** *** C14.  [b1] and [b2] are arbitrary contents of the scratch buffer. *)
Theorem C14_independent_of_earlier_parses : forall v text g1 g2 b1 b2,
  prior_parses g1 -> prior_parses g2 ->
  fst (parse_dictionary v text (b1, snd g1)) = fst (parse_dictionary v text (b2, snd g2)) /\
  forall d s,
    fst (load v d s (b1, snd g1)) = fst (load v d s (b2, snd g2)).
Proof.
  intros v text g1 g2 b1 b2 H1 H2. pose proof (prior_map_ok _ H1) as M1. pose proof (prior_map_ok _ H2) as M2.
  split; [now apply parse_dictionary_indep|]. intros d s.
  assert (fst (read_npy_header v s (b1, snd g1)) = fst (read_npy_header v s (b2, snd g2))) as HH.
  { unfold read_npy_header. destruct (sread STATIC_HEADER_LENGTH s) as [got s1]. cbv zeta.
    match goal with |- context [match ?x with Ok _ => _ | _ => _ end] => destruct x as [[n s2]|e| |u] end; try reflexivity.
    destruct (n >? mem v); [reflexivity|]. destruct (sread n s2) as [dd s3].
    pose proof (parse_dictionary_indep v (dd ++ zrepeat 0 (n - len dd)) (b1, snd g1) (b2, snd g2) M1 M2) as HP.
    destruct (parse_dictionary v (dd ++ zrepeat 0 (n - len dd)) (b1, snd g1)),
             (parse_dictionary v (dd ++ zrepeat 0 (n - len dd)) (b2, snd g2)).
    cbn [fst] in *. now rewrite HP. }
  unfold load. destruct (read_npy_header v s (b1, snd g1)) as [[o s1] g1'], (read_npy_header v s (b2, snd g2)) as [[o2 s2] g2'].
  cbn [fst] in HH. injection HH as <- <-. destruct o as [h|e| |u]; try reflexivity.
  destruct (tensor_load v d h s1). reflexivity.
Qed.
Print Assumptions C14_independent_of_earlier_parses.
(** Two different histories. *)
Example C14_case :
  let g := snd (parse_dictionary (mk_env false true 1000) (str "{'descr': 'weird', }") (zrepeat 0 65536, DTYPE_MAP)) in
  prior_parses g /\ snd g <> DTYPE_MAP.
Proof. split; [repeat constructor|]. vm_compute. discriminate. Qed.

(** *** C14b: parsing stays within the scratch buffer. *)
Theorem C14_buffer_never_overflows : forall g, prior_parses g -> len (fst g) = 65536.
Proof. exact prior_buffer. Qed.
Print Assumptions C14_buffer_never_overflows.

(** *** C15 *)
Theorem C15_assertions_only_reject : forall host_is_big memory d s g,
  let debug := mk_env host_is_big true memory in
  let rel := mk_env host_is_big false memory in
  let returned {A} (o : outcome A) := (exists a, o = Ok a) \/ (exists e, o = Throw e) in
  (returned (fst (fst (load debug d s g))) -> load rel d s g = load debug d s g) /\
  (returned (fst (fst (peek debug s g))) -> peek rel s g = peek debug s g).
Proof.
  intros hb m d s g debug rel returned.
  assert (forall (A : Type) (o : outcome A), returned A o -> clean o) as HC.
  { intros A o [[a ->]|[e ->]]; exact I. }
  change rel with (release debug). split.
  - intros HR. unfold load in *.
    pose proof (read_npy_header_release debug s g) as H.
    destruct (read_npy_header debug s g) as [[o s1] g1]. cbn [fst] in *.
    assert (clean o) as Ho.
    { destruct o; try exact I; cbn [fst] in HR; apply HC in HR; exact HR. }
    rewrite (H Ho). destruct o as [h|e| |u]; try reflexivity. now rewrite tensor_load_release.
  - intros HR. unfold peek in *. apply read_npy_header_release. now apply HC.
Qed.
Print Assumptions C15_assertions_only_reject.
(** The converse fails: a wrong magic string is only noticed by a debug build. *)
Example C15_case :
  let file := [0; 0; 0; 0; 0; 0] ++ zdrop 6 (write_npy_header (str "|u1") false [1]) ++ [42] in
  (exists t, fst (fst (load (mk_env false false 1000) UINT8 (open_str file) (zrepeat 0 8, DTYPE_MAP))) = Ok t) /\
  fst (fst (load (mk_env false true 1000) UINT8 (open_str file) (zrepeat 0 8, DTYPE_MAP))) = AssertFail.
Proof. split; [eexists|]; vm_compute; reflexivity. Qed.

(** *** C16 *)
Definition mentions_descr (es : list entry) : Prop := exists e c, In e es /\ value e = FDescr c.
Definition mentions_order (es : list entry) : Prop := exists e b, In e es /\ value e = FOrder b.
Definition mentions_shape (es : list entry) : Prop := exists e l, In e es /\ value e = FShape l.

Lemma sets_defined l h h' : sets l h h' ->
  ((exists c, In (FDescr c) l) ->
     exists d e n, h_dtype h' = Some d /\ h_endian h' = Some e /\ h_maxlen h' = Some n) /\
  (~ (exists c, In (FDescr c) l) ->
     h_dtype h' = h_dtype h /\ h_endian h' = h_endian h /\ h_maxlen h' = h_maxlen h) /\
  ((exists b, In (FOrder b) l) -> exists b, h_fortran h' = Some b) /\
  (~ (exists b, In (FOrder b) l) -> h_fortran h' = h_fortran h) /\
  (~ (exists b, In (FShape b) l) -> h_shape h' = h_shape h).
Proof.

  assert (forall t, (exists c, In (FDescr c) t) \/ ~ (exists c, In (FDescr c) t)) as D1.
  { induction t as [|x t IH]; [right; intros [c []]|]. destruct IH as [[c H]|H]; [left; exists c; now right|].
    destruct x as [c|b|l0]; [left; exists c; now left| |]; right; intros [c [E|I]]; try discriminate; apply H; eauto. }
  assert (forall t, (exists c, In (FOrder c) t) \/ ~ (exists c, In (FOrder c) t)) as D2.
  { induction t as [|x t IH]; [right; intros [c []]|]. destruct IH as [[c H]|H]; [left; exists c; now right|].
    destruct x as [c|b|l0]; [|left; exists b; now left|]; right; intros [c2 [E|I]]; try discriminate; apply H; eauto. }
  induction 1 as [h|c d e n t h h' Hd HS (A1 & A2 & A3 & A4 & A5)|b t h h' HS (A1 & A2 & A3 & A4 & A5)
                 |l0 t h h' HS (A1 & A2 & A3 & A4 & A5)]; cbn [In h_dtype h_endian h_fortran h_shape h_maxlen] in *.
  - repeat split; auto; intros [c []].
  - split.
    { intros _. destruct (D1 t) as [H|H]; [auto|]. destruct (A2 H) as (-> & -> & ->). exists d, e, n; auto. }
    split. { intros H. exfalso. apply H. eauto. }
    split. { intros [b [E|I]]; [discriminate|]. eauto. }
    split. { intros H. apply A4. intros [b I]. apply H. eauto. }
    intros H. apply A5. intros [b I]. apply H. eauto.
  - split. { intros [c [E|I]]; [discriminate|]. eauto. }
    split. { intros H. apply A2. intros [c I]. apply H. eauto. }
    split. { intros _. destruct (D2 t) as [H|H]; [auto|]. rewrite (A4 H). eauto. }
    split. { intros H. exfalso. apply H. eauto. }
    intros H. apply A5. intros [c I]. apply H. eauto.
  - split. { intros [c [E|I]]; [discriminate|]. eauto. }
    split. { intros H. apply A2. intros [c I]. apply H. eauto. }
    split. { intros [b [E|I]]; [discriminate|]. eauto. }
    split. { intros H. apply A4. intros [b I]. apply H. eauto. }
    intros H. exfalso. apply H. eauto.
Qed.

Theorem C16_missing_keys_leave_fields_undefined : forall v g es tail,
  prior_parses g -> Forall layout_ok es -> Forall (fun e => field_ok (value e)) es ->
  exists h, fst (parse_dictionary v (dict_text es tail) g) = Ok h /\
    (mentions_descr es -> h_dtype h <> None /\ h_endian h <> None /\ h_maxlen h <> None) /\
    (~ mentions_descr es -> h_dtype h = None /\ h_endian h = None /\ h_maxlen h = None) /\
    (mentions_order es -> h_fortran h <> None) /\
    (~ mentions_order es -> h_fortran h = None) /\
    (~ mentions_shape es -> h_shape h = []) /\
    (* using such a header *)
    (forall d s, ~ mentions_order es -> fst (tensor_load v d h s) = Undef UninitRead) /\
    (forall d s, mentions_order es -> ~ mentions_descr es ->
       fst (tensor_load v d h s) = Undef UninitRead \/ fst (tensor_load v d h s) = Throw AllocError).
Proof.
  intros v g es tail Hg HL HF.
  destruct (parse_dictionary_text v es tail g HL HF (prior_map_ok _ Hg)) as (h & g' & H1 & _ & H2).
  exists h. rewrite H1. split; [reflexivity|].
  destruct (sets_defined _ _ _ H2) as (A1 & A2 & A3 & A4 & A5).
  assert (mentions_descr es <-> exists c, In (FDescr c) (map value es)) as E1.
  { split; [intros (e & c & I & E); exists c; apply in_map_iff; eauto|].
    intros (c & I). apply in_map_iff in I as (e & E & I). exists e, c. auto. }
  assert (mentions_order es <-> exists c, In (FOrder c) (map value es)) as E2.
  { split; [intros (e & c & I & E); exists c; apply in_map_iff; eauto|].
    intros (c & I). apply in_map_iff in I as (e & E & I). exists e, c. auto. }
  assert (mentions_shape es <-> exists c, In (FShape c) (map value es)) as E3.
  { split; [intros (e & c & I & E); exists c; apply in_map_iff; eauto|].
    intros (c & I). apply in_map_iff in I as (e & E & I). exists e, c. auto. }
  rewrite E1, E2, E3.
  split. { intros H. destruct (A1 H) as (d & e & n & -> & -> & ->). repeat split; discriminate. }
  split. { intros H. apply (A2 H). }
  split. { intros H. destruct (A3 H) as [b ->]. discriminate. }
  split. { intros H. apply (A4 H). }
  split. { intros H. apply (A5 H). }
  split. { intros d s H. rewrite E2 in H. unfold tensor_load. rewrite (A4 H). reflexivity. }
  intros d s HO HN. rewrite E2 in HO. rewrite E1 in HN. unfold tensor_load. destruct (A3 HO) as [b ->]. destruct (A2 HN) as (-> & _). cbn [field obind].
  unfold make_tensor. destruct (get_size (h_shape h) * item_size d >? mem v); cbn [obind h_dtype header_uninit fst]; auto.
Qed.
Print Assumptions C16_missing_keys_leave_fields_undefined.
Example C16_case :
  let es := [mk_dict_entry [] [] (str " ") (str " ") (FShape [3])] in
  Forall layout_ok es /\ Forall (fun e => field_ok (value e)) es /\ ~ mentions_descr es /\ ~ mentions_order es.
Proof.
  split; [repeat constructor|]. split; [repeat constructor|].
  split; intros (e & c & [<-|[]] & E); discriminate.
Qed.

(** *** C17 *)
Theorem C17_shape_text : forall v g code d e n fortran ints tail,
  prior_parses g -> descr_denotes code d e n -> len (tuple_body ints) < 65535 ->
  exists h, fst (parse_dictionary v (dict_text (standard_entries code fortran ints) tail) g) = Ok h /\
    h_shape h = read_dims ints /\
    (shape_ok ints -> h_shape h = ints) /\
    (* a number of 2^64 or more, or its negation, ends the list silently *)
    (forall before z after, ints = before ++ z :: after -> shape_ok before -> 2 ^ 64 <= Z.abs z ->
       h_shape h = before) /\
    (* negative numbers are accepted modulo 2^64 *)
    (Forall (fun z => - 2 ^ 64 < z < 2 ^ 64) ints -> h_shape h = map (fun z => z mod 2 ^ 64) ints).
Proof.
  intros v g code d e n f ints tail Hg Hd HL.
  destruct (parse_dictionary_text v (standard_entries code f ints) tail g) as (h & g' & H1 & _ & H2).
  - apply standard_layout.
  - unfold standard_entries. repeat constructor; cbn [value field_ok]; eauto.
  - exact (prior_map_ok _ Hg).
  - exists h. rewrite H1. split; [reflexivity|].
    assert (h_shape h = read_dims ints) as HS.
    { unfold standard_entries in H2. cbn [map value] in H2.
      inversion H2 as [|? d' e' n' ? ? ? Hd' H3| |]; subst. inversion H3 as [| |? ? ? ? H4|]; subst.
      inversion H4 as [| | |? ? ? ? H5]; subst. inversion H5; subst. reflexivity. }
    split; [exact HS|]. split; [intros; rewrite HS; now apply read_dims_ok|]. rewrite HS. split.
    + intros before z after -> Hb Hz. clear - Hb Hz. induction Hb as [|x before Hx Hb IH]; cbn [app read_dims].
      * destruct (Z.abs z <? 2 ^ 64) eqn:E; [lia|reflexivity].
      * destruct (Z.abs x <? 2 ^ 64) eqn:E; [|unfold max64 in *; lia].
        rewrite IH, Z.mod_small by (unfold max64 in *; lia). reflexivity.
    + intros HF. clear - HF. induction HF as [|z l Hz HF IH]; [reflexivity|]. cbn [read_dims map].
      destruct (Z.abs z <? 2 ^ 64) eqn:E; [|lia]. now rewrite IH.
Qed.
Print Assumptions C17_shape_text.
Example C17_case :
  read_dims [2; -1; 3] = [2; 18446744073709551615; 3] /\
  read_dims [2; 18446744073709551616; 3] = [2].
Proof. split; reflexivity. Qed.
