(** C54: saves cut short at any byte; C55: loading arbitrary bytes. *)
From Coq Require Import String ZArith List Bool Lia.
From Verif Require Import Base Stream BaseFacts Dtype Values Spec ValuesFacts PropValues Header HeaderFacts ParseFacts
  ParserInv ParserRel NpyFacts PropHeader Tensor TensorFacts PropTensor Npy SaveFacts PropNpy CutFacts.
Import ListNotations.
Open Scope Z_scope.

Lemma code_no_brace code d e n : descr_denotes code d e n -> Forall (fun c => c <> 125) code.
Proof.
  intros [d0 big _|big k Hk].
  - destruct d0, big; vm_compute; repeat constructor; discriminate.
  - apply Forall_app. split; [destruct big; vm_compute; repeat constructor; discriminate|].
    rewrite <- spell_pos by lia. apply spell_no. lia.
Qed.

(** The bytes of a saved header. *)
Lemma header_parts code f sh : shape_ok sh -> len (python_dict code f sh) <= 245 ->
  exists N pad, In N [54; 118; 182; 246] /\ 0 <= pad /\ N = len (python_dict code f sh) + pad + 1 /\
  write_npy_header code f sh = [147; 78; 85; 77; 80; 89; 1; 0; N; 0] ++ python_dict code f sh ++ zrepeat 32 pad ++ [10].
Proof.
  intros Hs HD. destruct (write_npy_header_shape code f sh) as (pad & Hp & Hmod & HW).
  rewrite (dictionary_python _ _ _ Hs) in HW, Hmod. set (D := python_dict code f sh) in *.
  pose proof (len_nonneg _ D) as HD0. exists (len D + pad + 1), pad.
  apply Z.mod_divide in Hmod; [|lia]. destruct Hmod as [k Hk].
  assert (k = 1 \/ k = 2 \/ k = 3 \/ k = 4) as HK by lia.
  split; [cbn [In]; lia|]. split; [lia|]. split; [reflexivity|].
  rewrite HW. unfold u8. rewrite Z.mod_small by lia. reflexivity.
Qed.

(** Fewer than ten bytes: the reader looks at bytes it never got. *)
Lemma short_header v s g N x : good s = true -> 0 <= x < 10 ->
  rest s = ztake x [147; 78; 85; 77; 80; 89; 1; 0; N; 0] ->
  fst (fst (read_npy_header v s g)) = Undef UninitRead.
Proof.
  intros G Hx R. unfold read_npy_header, sread. rewrite G, R.
  assert (x = 0 \/ x = 1 \/ x = 2 \/ x = 3 \/ x = 4 \/ x = 5 \/ x = 6 \/ x = 7 \/ x = 8 \/ x = 9) as HX by lia.
  repeat (destruct HX as [-> | HX]; [destruct (dbg v); cbn; reflexivity|]). subst x. destruct (dbg v); cbn; reflexivity.
Qed.

(** At least the ten bytes, but not the dictionary: what the parser sees. *)
Lemma cut_header v s g N body : good s = true -> 0 <= N <= 255 -> N <= mem v -> len body < N ->
  rest s = [147; 78; 85; 77; 80; 89; 1; 0; N; 0] ++ body ->
  fst (fst (read_npy_header v s g)) = fst (parse_dictionary v (body ++ zrepeat 0 (N - len body)) g) /\
  snd (read_npy_header v s g) = snd (parse_dictionary v (body ++ zrepeat 0 (N - len body)) g) /\
  good (snd (fst (read_npy_header v s g))) = false.
Proof.
  intros G HN HM HL R. unfold read_npy_header.
  assert (sread STATIC_HEADER_LENGTH s = ([147; 78; 85; 77; 80; 89; 1; 0; N; 0], set_rest s body)) as ->.
  { apply (sread_app s [147; 78; 85; 77; 80; 89; 1; 0; N; 0] body G R). }
  match goal with |- context [if dbg v then ?c else _] => assert ((if dbg v then c else Ok tt) = Ok tt) as ->
    by (destruct (dbg v); reflexivity) end.
  assert (cells 10 [147; 78; 85; 77; 80; 89; 1; 0; N; 0] = map Some [147; 78; 85; 77; 80; 89; 1; 0; N; 0]) as -> by reflexivity.
  cbn [obind and_then cell_is cell map nth Z.eqb Pos.eqb].
  rewrite Z.mul_0_r, Z.add_0_r.
  destruct (N >? mem v) eqn:E; [lia|].
  unfold sread. change (good (set_rest s body)) with (good s). rewrite G. cbn [rest set_rest].
  rewrite ztake_all by lia. destruct (len body <? N) eqn:E2; [|lia].
  destruct (parse_dictionary v (body ++ zrepeat 0 (N - len body)) g). cbn. rewrite andb_false_r || idtac. auto.
Qed.

(** *** C54.  [cut] bytes of the file were written; 125 is the closing brace. *)
Theorem C54_interrupted_saves : forall v1 v2 t e file cut s g,
  api_tensor t -> save_fits v1 t e -> room v2 t -> same_host_if_complex v1 v2 t ->
  Forall no_nuls (t_values t) ->
  save v1 t e = Ok file -> 0 <= cut < len file ->
  good s = true -> prior_parses g -> rest s = ztake cut file ->
  let loaded := fst (fst (load v2 (t_dtype t) s g)) in
  let peeked := fst (fst (peek v2 s g)) in
  (* not even the fixed part of the header: undefined behaviour *)
  (cut < 10 -> loaded = Undef UninitRead /\ peeked = Undef UninitRead) /\
  (* the dictionary is incomplete: an error *)
  (10 <= cut -> ~ In 125 (ztake cut file) ->
     (forall t', loaded <> Ok t') /\ (forall h, peeked <> Ok h) /\
     (dbg v2 = false -> (exists x, loaded = Throw x) /\ (exists x, peeked = Throw x))) /\
  (* the dictionary is there: no error, whatever else is missing *)
  (In 125 (ztake cut file) ->
     (exists t', loaded = Ok t' /\
        t_shape t' = t_shape t /\ t_fortran t' = t_fortran t /\ t_dtype t' = t_dtype t /\ t_size t' = t_size t /\
        (forall k, 0 <= k <= t_size t ->
           len file - (t_size t - k) * array_item (t_dtype t) (t_values t) <= cut ->
           ztake k (t_values t') = ztake k (t_values t))) /\
     (exists h, peeked = Ok h /\ h_dtype h = Some (t_dtype t) /\ h_shape h = t_shape t /\ h_fortran h = Some (t_fortran t))).
Proof.
  intros v1 v2 t e file cut s g Ht HF HR HC HN HS HCut G Hg R loaded peeked.
  pose proof (api_tensor_wf _ Ht) as Hw. pose proof Hw as (Hs & Hst & Hsz & Hv).
  pose proof HS as HS0. rewrite save_file in HS. injection HS as HS.
  set (big := means_big (host_big v1) e) in *.
  set (code := array_descr (t_dtype t) big (t_values t)) in *.
  destruct HF as [HF1 HF2]. fold big code in HF1.
  pose proof (array_descr_denotes (t_dtype t) big (t_values t) HF2) as Hd. fold code in Hd.
  destruct (header_parts code (t_fortran t) (t_shape t) Hs HF1) as (N & pad & HNin & Hpad & HNe & HW).
  set (D := python_dict code (t_fortran t) (t_shape t)) in *.
  assert (54 <= N <= 246 /\ N <> 125) as [HNr HN125] by (cbn [In] in HNin; lia).
  destruct HR as [HM1 HM2].
  set (pre := [147; 78; 85; 77; 80; 89; 1; 0; N; 0]) in *.
  assert (len pre = 10) as Hpre by reflexivity.
  set (data := write_values v1 (t_dtype t) e (t_values t)) in *.
  assert (file = pre ++ D ++ zrepeat 32 pad ++ [10] ++ data) as Hfile.
  { rewrite <- HS, HW. now rewrite <- !app_assoc. }
  pose proof (len_nonneg _ D) as HD0. pose proof (len_nonneg _ data) as Hdata0.
  set (D0 := str "{'descr': '" ++ code ++ 39 :: after_code (t_fortran t) (t_shape t)).
  assert (D = D0 ++ [125]) as HD.
  { unfold D, D0. rewrite python_dict_parts. rewrite <- !app_assoc. reflexivity. }
  assert (Forall (fun c => c <> 125) (pre ++ D0)) as Hnb.
  { apply Forall_app. split.
    - unfold pre. repeat constructor; try discriminate; assumption.
    - unfold D0. apply Forall_app. split; [vm_compute; repeat constructor; discriminate|].
      apply Forall_app. split; [eapply code_no_brace; exact Hd|]. constructor; [discriminate|].
      eapply Forall_impl; [|apply plain_after_code]. intros c [H _]. exact H. }
  assert (len D = len D0 + 1) as HDlen by (rewrite HD; lens; reflexivity).
  (* where the brace is *)
  assert (cut < 10 + len D -> ~ In 125 (ztake cut file)) as Hbrace1.
  { intros Hc Hin. assert (ztake cut file = ztake cut (pre ++ D0)) as Hz.
    { rewrite Hfile, HD. rewrite <- app_assoc, app_assoc. apply ztake_app_le. lens. lia. }
    rewrite Hz in Hin. apply Forall_ztake with (n := cut) in Hnb. rewrite Forall_forall in Hnb. now apply (Hnb 125). }
  assert (10 + len D <= cut -> In 125 (ztake cut file)) as Hbrace2.
  { intros Hc. rewrite Hfile, HD. replace (pre ++ (D0 ++ [125]) ++ zrepeat 32 pad ++ [10] ++ data) with
      ((pre ++ D0 ++ [125]) ++ zrepeat 32 pad ++ [10] ++ data) by (now rewrite <- !app_assoc).
    rewrite ztake_app_ge by (lens; lia). apply in_or_app. left. apply in_or_app. right. apply in_or_app. right. now left. }
  assert (forall v, 246 <= mem v -> dbg v = false -> 10 <= cut -> cut < 10 + len D ->
    exists x, fst (fst (read_npy_header v s g)) = Throw x) as Hthrow.
  { intros v Hm Hrel H10 Hc.
    assert (ztake cut file = pre ++ ztake (cut - 10) D) as Hz.
    { rewrite Hfile. rewrite ztake_app_ge by lia. rewrite Hpre. f_equal. apply ztake_app_le. lia. }
    rewrite Hz in R.
    assert (len (ztake (cut - 10) D) = cut - 10) as HLz by (rewrite len_ztake; lia).
    destruct (cut_header v s g N (ztake (cut - 10) D) G ltac:(lia) ltac:(lia) ltac:(lia) R) as (-> & _).
    rewrite HLz. apply (parse_cut v g code _ _ _ (t_fortran t) (t_shape t) (cut - 10) N Hrel (prior_map_ok _ Hg) Hd HNin);
      fold D; lia. }
  split; [|split].
  - intros H10. assert (ztake cut file = ztake cut pre) as Hz by (rewrite Hfile; apply ztake_app_le; lia).
    rewrite Hz in R. pose proof (short_header v2 s g N cut G ltac:(lia) R) as H.
    unfold loaded, peeked, load, peek. destruct (read_npy_header v2 s g) as [[o s1] g1]. cbn [fst] in H. subst o. auto.
  - intros H10 Hnb2. assert (cut < 10 + len D) as Hc by (destruct (Z_lt_le_dec cut (10 + len D)); [assumption|exfalso; auto]).
    assert (dbg v2 = false -> (exists x, loaded = Throw x) /\ (exists x, peeked = Throw x)) as Hrelease.
    { intros Hrel. destruct (Hthrow v2 HM1 Hrel H10 Hc) as [x Hx]. unfold loaded, peeked, load, peek.
      destruct (read_npy_header v2 s g) as [[o s1] g1]. cbn [fst] in Hx. subst o. split; exists x; reflexivity. }
    destruct v2 as [hb db mm]. destruct db.
    + (* debug: by agreement with the release build *)
      destruct (C15_assertions_only_reject hb mm (t_dtype t) s g) as [Hl Hp].
      destruct (Hthrow (mk_env hb false mm) HM1 eq_refl H10 Hc) as [x Hx].
      split; [|split; [|discriminate]].
      * intros t' Ht'. specialize (Hl (or_introl (ex_intro _ t' Ht'))).
        unfold loaded in Ht'. rewrite <- Hl in Ht'. unfold load in Ht'.
        destruct (read_npy_header (mk_env hb false mm) s g) as [[o s1] g1]. cbn [fst] in Hx. subst o. discriminate.
      * intros h Hh. specialize (Hp (or_introl (ex_intro _ h Hh))).
        unfold peeked in Hh. rewrite <- Hp in Hh. unfold peek in Hh. rewrite Hx in Hh. discriminate.
    + destruct (Hrelease eq_refl) as [[x Hx] [y Hy]]. split; [|split].
      * intros t' Ht'. rewrite Hx in Ht'. discriminate.
      * intros h Hh. rewrite Hy in Hh. discriminate.
      * intros _. eauto.
  - intros Hin. assert (10 + len D <= cut) as Hc by (destruct (Z_lt_le_dec cut (10 + len D)); [exfalso; apply Hbrace1; auto|assumption]).
    set (W := write_npy_header code (t_fortran t) (t_shape t)) in *.
    assert (len W = 10 + N) as HWL by (rewrite HW; lens; lia).
    assert (len data = t_size t * array_item (t_dtype t) (t_values t)) as HDL.
    { destruct (longest_bounds (t_values t)) as [HL0 HLs].
      assert (0 <= array_item (t_dtype t) (t_values t)) as HA0 by (unfold array_item, file_item_size; destruct (t_dtype t); cbn [width]; lia).
      unfold data. rewrite write_values_enc. pose proof (enc_length v1 (t_dtype t) e (longest (t_values t)) (t_values t)) as HE.
      rewrite (len_flat_map _ _ (Z.to_nat (array_item (t_dtype t) (t_values t)))).
      - unfold t_size. rewrite Z2Nat.id by exact HA0. reflexivity.
      - apply Forall_forall. intros x Hx. specialize (HE x Hv HLs Hx HL0). unfold len in HE. unfold array_item. lia. }
    assert (len file = 10 + N + len data) as HfL by (rewrite <- HS, len_app; lia).
    destruct (Z_le_gt_dec (10 + N) cut) as [Hdata|Hpadding].
    + (* the header is whole: C30 *)
      assert (ztake cut file = W ++ ztake (cut - len W) data) as Hz.
      { rewrite <- HS. rewrite ztake_app_ge by lia. reflexivity. }
      rewrite Hz in R. rewrite <- HS in HS0.
      destruct (C30_truncation_not_detected v1 v2 t e W data (cut - len W) s g Ht (conj HF1 HF2) (conj HM1 HM2) HC HN HS0 HDL
                  ltac:(lia) G Hg R) as (t' & s' & g' & HL & H1 & H2 & H3 & H4 & H5 & _).
      split.
      * exists t'. unfold loaded. rewrite HL. cbn [fst]. split; [reflexivity|]. do 4 (split; [assumption|]).
        intros k Hk Hkc. apply H5; [exact Hk|]. lia.
      * destruct (C29_peek_agrees_with_load _ _ _ _ _ _ _ HL) as (h & s1 & HP & E1 & E2 & E3 & E4).
        exists h. unfold peeked. rewrite HP. cbn [fst]. rewrite E1, E3, E4, H1, H2, H3. auto.
    + (* only padding and data are missing *)
      set (q := cut - 10 - len D).
      set (body := D ++ ztake q (zrepeat 32 pad ++ [10])).
      assert (ztake cut file = pre ++ body) as Hz.
      { rewrite Hfile. rewrite ztake_app_ge by lia. rewrite Hpre. f_equal. rewrite ztake_app_ge by lia.
        unfold body, q. f_equal. rewrite app_assoc. apply ztake_app_le. lens. lia. }
      rewrite Hz in R.
      assert (len body = cut - 10) as HbL.
      { unfold body, q. rewrite len_app, len_ztake. lens. lia. }
      destruct (cut_header v2 s g N body G ltac:(lia) ltac:(lia) ltac:(lia) R) as (HH & _ & HB).
      pose proof (tuple_in_dict code (t_fortran t) (t_shape t)) as HT. fold D in HT.
      destruct (parse_standard v2 g code _ _ _ (t_fortran t) (t_shape t) (ztake q (zrepeat 32 pad ++ [10]) ++ zrepeat 0 (N - len body))
        (prior_map_ok _ Hg) Hd Hs ltac:(lia)) as [g' HP].
      fold D in HP. unfold body in HH at 1. rewrite <- app_assoc, HP in HH. cbn [fst] in HH.
      unfold loaded, peeked, load, peek. destruct (read_npy_header v2 s g) as [[o s1] g1]. cbn [fst snd] in HH, HB. subst o.
      assert (get_size (t_shape t) = t_size t) as HG by (now rewrite get_size_product).
      split.
      * rewrite tensor_load_complete by (rewrite HG; exact HM2). cbv zeta. rewrite HG. cbn [fst].
        eexists. split; [reflexivity|]. cbn [t_shape t_fortran t_dtype t_values].
        split; [reflexivity|]. split; [reflexivity|]. split; [reflexivity|]. 
        assert (0 <= t_size t) as Hn0 by apply len_nonneg.
        split; [unfold t_size at 1; cbn [t_values]; now apply read_values_count|].
        intros k Hk Hkc. assert (k = 0 \/ array_item (t_dtype t) (t_values t) = 0) as [-> | HA0].
        { assert (0 <= array_item (t_dtype t) (t_values t)).
          { destruct (longest_bounds (t_values t)). unfold array_item, file_item_size; destruct (t_dtype t); cbn [width]; lia. }
          nia. }
        -- rewrite !ztake_0 by reflexivity. reflexivity.
        -- exfalso. rewrite HA0 in *. lia.
      * eexists. split; [reflexivity|]. cbn. auto.
Qed.
Print Assumptions C54_interrupted_saves.
(** All three cases occur: 9, 40, 80 and 132 bytes of a file of 140. *)
Example C54_case :
  let t := mk_tensor [3] [1] false INT32 [Scalar 7; Scalar 8; Scalar 9] in
  let g := (zrepeat 0 65536, DTYPE_MAP) in
  let v := mk_env false false (2 ^ 40) in
  let load_of b := fst (fst (load v INT32 (open_str b) g)) in
  api_tensor t /\ save_fits case_env t LITTLE /\ room v t /\
  exists b, save case_env t LITTLE = Ok b /\ len b = 140 /\
    load_of (ztake 9 b) = Undef UninitRead /\
    load_of (ztake 40 b) = Throw RuntimeError /\
    load_of (ztake 132 b) = Ok (mk_tensor [3] [1] false INT32 [Scalar 7; Scalar 0; Scalar 0]) /\
    load_of (ztake 80 b) = Ok (mk_tensor [3] [1] false INT32 [Scalar 0; Scalar 0; Scalar 0]).
Proof.
  cbv zeta. split.
  { destruct (make_tensor case_env INT32 [3] false) eqn:E; try (vm_compute in E; discriminate).
    replace (mk_tensor [3] [1] false INT32 [Scalar 7; Scalar 8; Scalar 9])
      with (snd (copy_from a [Scalar 7; Scalar 8; Scalar 9])) by (vm_compute in E; injection E as <-; vm_compute; reflexivity).
    apply by_copy; [eapply by_ctor; [|exact E]; repeat constructor; unfold max64; lia|].
    injection E as <-. repeat constructor; try discriminate; unfold fits; cbn; lia. }
  split; [split; vm_compute; discriminate|]. split; [split; vm_compute; discriminate|].
  eexists. split; [vm_compute; reflexivity|]. repeat (split; [vm_compute; reflexivity|]). vm_compute. reflexivity.
Qed.

(** *** C55 *)
(** The type, byte order and string length of a header are set together. *)
Definition together (h : header_info) : Prop :=
  (h_dtype h = None /\ h_endian h = None /\ h_maxlen h = None) \/
  (h_dtype h <> None /\ h_endian h <> None /\ h_maxlen h <> None).
Lemma entry_together v h p h' q : p_entry v h p = (Ok h', q) -> together h -> together h'.
Proof.
  intros E Hh. unfold p_entry in E.
  apply bind_ok in E as (? & p1 & _ & E). apply bind_ok in E as (key & p2 & _ & E).
  apply bind_ok in E as (? & p3 & _ & E). apply bind_ok in E as (? & p4 & _ & E).
  apply bind_ok in E as (? & p5 & _ & E). apply bind_ok in E as (h1 & p6 & E1 & E).
  apply bind_ok in E as (? & p7 & _ & E). apply bind_ok in E as (? & p8 & _ & E).
  injection E as <- _.
  destruct (beq key (str "descr")); [|destruct (beq key (str "fortran_order")); [|destruct (beq key (str "shape")); [|discriminate]]].
  - apply bind_ok in E1 as (code & q1 & _ & E1). apply bind_ok in E1 as ([[d e] n] & q2 & _ & E1).
    injection E1 as <- _. right. cbn. repeat split; discriminate.
  - apply bind_ok in E1 as (b & q1 & _ & E1). injection E1 as <- _. exact Hh.
  - apply bind_ok in E1 as (b & q1 & _ & E1). injection E1 as <- _. exact Hh.
Qed.
Lemma entries_together v fuel : forall h p h' q, p_entries v fuel h p = (Ok h', q) -> together h -> together h'.
Proof.
  induction fuel as [|f IH]; intros h p h' q E Hh; [discriminate|]. cbn [p_entries] in E.
  apply bind_ok in E as (c & p1 & _ & E). destruct (c =? 125).
  - apply bind_ok in E as (? & p2 & _ & E). now injection E as <- _.
  - apply bind_ok in E as (h1 & p2 & E1 & E). eapply IH; [exact E|]. eapply entry_together; eauto.
Qed.
Lemma parse_together v text g h : fst (parse_dictionary v text g) = Ok h -> together h.
Proof.
  unfold parse_dictionary. destruct ((p_char v 123 ;;; p_entries v (S (length text)) header_uninit)%monad
    (mk_pst (open_str text) (fst g) (snd g))) as [o q] eqn:E. cbn [fst]. intros ->.
  apply bind_ok in E as (? & p1 & _ & E). eapply entries_together; [exact E|]. left. cbn. auto.
Qed.

(** What the stream still has to give. *)
Definition available (s : istream) : bytes := if good s then rest s else [].
(** Its first [n] bytes cannot all be read. *)
Definition lacks (s : istream) (n : Z) : Prop := len (available s) < n.
Definition says_version_2 (s : istream) : Prop := nth 6 (available s) 0 = 2 /\ nth 7 (available s) 0 = 0.

Lemma cell_of n got i : (length got <= n)%nat -> (i < n)%nat ->
  cell (cells n got) i = if (i <? length got)%nat then Ok (nth i got 0) else Undef UninitRead.
Proof.
  intros HL Hi. unfold cell, cells.
  assert (nth i (firstn n (map Some got ++ repeat None n)) None = nth i (map Some got ++ repeat None n) None) as ->.
  { revert Hi. generalize (map Some got ++ repeat None n). clear. revert i. induction n as [|n IH]; intros i l Hi; [lia|].
    destruct l as [|x l]; [reflexivity|]. destruct i as [|i]; [reflexivity|]. cbn. apply IH. lia. }
  destruct (i <? length got)%nat eqn:E.
  - apply Nat.ltb_lt in E. rewrite app_nth1 by (rewrite map_length; lia).
    rewrite (nth_indep _ None (Some 0)) by (rewrite map_length; lia). rewrite map_nth. reflexivity.
  - apply Nat.ltb_ge in E. rewrite app_nth2 by (rewrite map_length; lia).
    assert (forall k m, nth k (repeat (@None Z) m) None = None) as ->; [|reflexivity].
    clear. intros k m. revert k. induction m as [|m IH]; intros [|k]; cbn; auto.
Qed.
Lemma sread_available n s : 0 <= n -> fst (sread n s) = ztake n (available s) /\
  (len (available s) < n \/ available (snd (sread n s)) = zdrop n (available s)).
Proof.
  intros Hn. unfold sread, available. destruct (good s) eqn:G.
  - destruct (len (ztake n (rest s)) <? n) eqn:E; cbn [fst snd].
    + split; [reflexivity|]. left. rewrite len_ztake in E. lia.
    + split; [reflexivity|]. right. change (good (set_rest s (zdrop n (rest s)))) with (good s). rewrite G. reflexivity.
  - cbn [fst snd]. split; [now rewrite ztake_firstn, firstn_nil|]. destruct (Z.eq_dec n 0) as [->|].
    + right. unfold good in *. cbn. destruct (eofb s); reflexivity.
    + left. change (len (@nil Z)) with 0. lia.
Qed.

Theorem C55_arbitrary_bytes : forall v d s g, dbg v = false ->
  let loaded := fst (fst (load v d s g)) in
  let peeked := fst (fst (peek v s g)) in
  (* a release build stops in no assertion and always ends *)
  loaded <> AssertFail /\ peeked <> AssertFail /\
  loaded <> Undef OutOfFuel /\ peeked <> Undef OutOfFuel /\
  (* its behaviour is undefined only if the fixed part of the header is cut off, or
     the type code is an empty string; *)
  (forall u, peeked = Undef u ->
     (u = UninitRead /\ (lacks s 10 \/ says_version_2 s /\ lacks s 12)) \/ u = OutOfBounds) /\
  (lacks s 7 -> peeked = Undef UninitRead) /\
  (* or, when loading, if the dictionary lacks 'descr' or 'fortran_order'; *)
  (forall u, loaded = Undef u -> peeked = Undef u \/
     u = UninitRead /\ exists h, peeked = Ok h /\ (h_dtype h = None \/ h_fortran h = None)) /\
  (* a returned header has type, byte order and string length, or none of them; *)
  (forall h, peeked = Ok h -> together h) /\
  (* and a tensor is returned only of the requested type, with the shape's number of
     elements (modulo 2^64). *)
  (forall t, loaded = Ok t -> t_dtype t = d /\ t_size t = product (t_shape t) mod 2 ^ 64).
Proof.
  intros v d s g Hrel loaded peeked.
  assert (peeked <> AssertFail /\ peeked <> Undef OutOfFuel /\
    (forall u, peeked = Undef u -> (u = UninitRead /\ (lacks s 10 \/ says_version_2 s /\ lacks s 12)) \/ u = OutOfBounds) /\
    (lacks s 7 -> peeked = Undef UninitRead) /\ (forall h, peeked = Ok h -> together h)) as (P1 & P2 & P3 & P4 & P5).
  { unfold peeked, peek, read_npy_header. rewrite Hrel.
    destruct (sread_available STATIC_HEADER_LENGTH s ltac:(unfold STATIC_HEADER_LENGTH; lia)) as [HG1 HG2].
    unfold STATIC_HEADER_LENGTH in *.
    destruct (sread 10 s) as [got s1]. cbn [fst snd] in HG1, HG2.
    assert (len got = Z.min 10 (len (available s))) as HGL by (rewrite HG1, len_ztake; pose proof (len_nonneg _ (available s)); lia).
    assert (length got <= 10)%nat as HGn by (unfold len in HGL; lia).
    assert (forall i, (i < 10)%nat -> cell (cells 10 got) i = if (i <? length got)%nat then Ok (nth i got 0) else Undef UninitRead)
      as HC by (intros i Hi; apply cell_of; [exact HGn|exact Hi]).
    assert (forall n s2, 
      let r := (if n >? mem v then (Throw AllocError, s2, g) else
        let (d0, s3) := sread n s2 in let buf := d0 ++ zrepeat 0 (n - len d0) in
        let (o, g') := parse_dictionary v buf g in (o, s3, g')) in
      fst (fst r) <> AssertFail /\ fst (fst r) <> Undef OutOfFuel /\ (forall u, fst (fst r) = Undef u -> u = OutOfBounds) /\
      (forall h, fst (fst r) = Ok h -> together h)) as HP.
    { intros n s2. destruct (n >? mem v); [cbn; repeat split; discriminate|].
      destruct (sread n s2) as [d0 s3]. cbv zeta.
      pose proof (parse_dictionary_release_outcomes v (d0 ++ zrepeat 0 (n - len d0)) g Hrel) as H1.
      pose proof (parse_dictionary_safe v (d0 ++ zrepeat 0 (n - len d0)) g) as [H2 _]. unfold nofuel in H2.
      pose proof (parse_together v (d0 ++ zrepeat 0 (n - len d0)) g) as H3.
      destruct (parse_dictionary v (d0 ++ zrepeat 0 (n - len d0)) g) as [o g']. cbn [fst] in *.
      repeat split.
      - intros ->. exact H1.
      - exact H2.
      - intros u ->. exact H1.
      - intros h ->. now apply H3. }
    assert (forall i, (i < 10)%nat -> nth i got 0 = nth i (available s) 0) as HZ.
    { intros i Hi. rewrite HG1, ztake_firstn. clear -Hi. change (Z.to_nat 10) with 10%nat.
      revert i Hi. generalize 10%nat as n. generalize (available s) as l. induction l as [|x l IH]; intros n i Hi.
      - now rewrite firstn_nil.
      - destruct n as [|n]; [lia|]. cbn [firstn]. destruct i as [|i]; [reflexivity|]. cbn [nth]. apply IH. lia. }
    assert (forall (m : nat), (m <= 10)%nat -> (length got < m)%nat -> lacks s (Z.of_nat m)) as Hlack.
    { intros m Hm Hlt. unfold lacks. unfold len in *. lia. }
    (* the length of the dictionary *)
    set (pre := (let* _ := Ok tt in _)).
    assert (match pre with
            | Ok (n, s2) => ~ lacks s 7
            | Undef u => u = UninitRead /\ (lacks s 10 \/ says_version_2 s /\ lacks s 12)
            | _ => False
            end) as Hpre.
    { unfold pre. cbn [obind]. unfold and_then, cell_is.
      rewrite (HC 6%nat), (HC 7%nat), (HC 8%nat), (HC 9%nat) by lia.
      destruct (Nat.ltb_spec 6 (length got)) as [L6|L6]; cbn [obind].
      2:{ split; [reflexivity|]. left. specialize (Hlack 7%nat ltac:(lia) ltac:(lia)). unfold lacks in *. lia. }
      assert (~ lacks s 7) as HN7 by (unfold lacks; unfold len in HGL |- *; lia).
      assert (forall m : nat, (7 <= m < 10)%nat -> (length got <= m)%nat -> lacks s 10) as HL10.
      { intros m Hm Hle. unfold lacks. unfold len in HGL |- *. lia. }
      destruct (nth 6 got 0 =? 1) eqn:E6; cbn [obind].
      - destruct (Nat.ltb_spec 7 (length got)) as [L7|L7]; cbn [obind]; [|split; [reflexivity|left; apply (HL10 7%nat); lia]].
        destruct (nth 7 got 0 =? 0) eqn:E7; cbn [obind].
        + destruct (Nat.ltb_spec 8 (length got)) as [L8|L8]; cbn [obind]; [|split; [reflexivity|left; apply (HL10 8%nat); lia]].
          destruct (Nat.ltb_spec 9 (length got)) as [L9|L9]; cbn [obind]; [|split; [reflexivity|left; apply (HL10 9%nat); lia]].
          exact HN7.
        + assert ((nth 6 got 0 =? 2) = false) as -> by (apply Z.eqb_neq; lia). cbn [obind]. exact HN7.
      - destruct (nth 6 got 0 =? 2) eqn:E62; cbn [obind]; [|exact HN7].
        destruct (Nat.ltb_spec 7 (length got)) as [L7|L7]; cbn [obind]; [|split; [reflexivity|left; apply (HL10 7%nat); lia]].
        destruct (nth 7 got 0 =? 0) eqn:E7; cbn [obind]; [|exact HN7].
        destruct (sread 2 s1) as [ex s2] eqn:E2.
        destruct (Nat.ltb_spec 8 (length got)) as [L8|L8]; cbn [obind]; [|split; [reflexivity|left; apply (HL10 8%nat); lia]].
        destruct (Nat.ltb_spec 9 (length got)) as [L9|L9]; cbn [obind]; [|split; [reflexivity|left; apply (HL10 9%nat); lia]].
        destruct HG2 as [HG2|HG2]; [exfalso; unfold len in *; lia|].
        destruct (sread_available 2 s1 ltac:(lia)) as [HE1 _]. rewrite E2 in HE1. cbn [fst] in HE1.
        assert (says_version_2 s) as HV2.
        { unfold says_version_2. rewrite <- !HZ by lia. lia. }
        assert (length ex <= 2)%nat as HEL.
        { pose proof (len_ztake _ 2 (available s1)) as HT. rewrite <- HE1 in HT. unfold len in HT. lia. }
        assert (forall m : nat, (length ex <= m)%nat -> (m < 2)%nat -> lacks s 12) as HL12.
        { intros m Hm Hm2. unfold lacks. pose proof (len_ztake _ 2 (available s1)) as HT. rewrite <- HE1, HG2, len_zdrop in HT.
          unfold len in *. lia. }
        rewrite !cell_of by lia.
        destruct (Nat.ltb_spec 0 (length ex)) as [X0|X0]; cbn [obind]; [|split; [reflexivity|right; split; [exact HV2|apply (HL12 0%nat); lia]]].
        destruct (Nat.ltb_spec 1 (length ex)) as [X1|X1]; cbn [obind]; [|split; [reflexivity|right; split; [exact HV2|apply (HL12 1%nat); lia]]].
        exact HN7. }
    destruct pre as [[n s2]|x| |u]; try contradiction.
    - destruct (HP n s2) as (A1 & A2 & A3 & A4). split; [exact A1|]. split; [exact A2|].
      split; [intros u Hu; right; now apply A3|]. split; [intros H7; contradiction|exact A4].
    - destruct Hpre as [-> Hpre]. cbn [fst]. split; [discriminate|]. split; [discriminate|].
      split; [intros u [= <-]; left; auto|]. split; [reflexivity|discriminate]. }
  assert (loaded = match peeked with
                   | Ok h => fst (tensor_load v d h (snd (fst (peek v s g))))
                   | Throw x => Throw x | AssertFail => AssertFail | Undef u => Undef u end) as HL.
  { unfold loaded, peeked, load, peek. destruct (read_npy_header v s g) as [[[h|x| |u] s1] g1]; cbn [fst snd]; try reflexivity.
    destruct (tensor_load v d h s1). reflexivity. }
  assert (forall h s1, together h -> fst (tensor_load v d h s1) <> AssertFail /\
    (forall u, fst (tensor_load v d h s1) = Undef u -> u = UninitRead /\ (h_dtype h = None \/ h_fortran h = None))) as HT.
  { intros h s1 Ht. unfold tensor_load. destruct (h_fortran h) as [f|]; cbn [field obind].
    2:{ cbn. split; [discriminate|]. intros u [= <-]. auto. }
    unfold make_tensor. destruct (_ >? mem v); cbn [obind fst]; [split; discriminate|].
    destruct (h_dtype h) as [d'|] eqn:Ed; cbn [field obind fst].
    2:{ split; [discriminate|]. intros u [= <-]. auto. }
    destruct (dtype_eqb d' d); cbn [fst]; [|split; discriminate].
    destruct Ht as [(Ht & _)|(_ & He & Hm)]; [congruence|].
    destruct (h_endian h) as [en|]; [|congruence]. destruct (h_maxlen h) as [m|]; [|congruence]. cbn [field obind].
    destruct (raw_type d), (is_string d); cbn [obind];
      match goal with |- context [read_values ?a ?b ?c ?x ?n ?y] => destruct (read_values a b c x n y) end; cbn [fst]; split; discriminate. }
  split. { rewrite HL. destruct peeked as [h|x| |u]; try congruence. apply HT. now apply P5. }
  split; [exact P1|].
  split. { rewrite HL. destruct peeked as [h|x| |u] eqn:E; try congruence. intros HX. apply HT in HX; [|now apply P5].
           destruct HX; discriminate. }
  split; [exact P2|]. split; [exact P3|]. split; [exact P4|].
  split. { intros u Hu. rewrite HL in Hu. destruct peeked as [h|x| |u'] eqn:E; try discriminate.
           - right. apply HT in Hu; [|now apply P5]. destruct Hu as [-> Hu]. split; [reflexivity|]. eauto.
           - left. now injection Hu as ->. }
  split; [exact P5|].
  intros t Ht. rewrite HL in Ht. destruct peeked as [h|x| |u'] eqn:E; try discriminate.
  destruct (tensor_load v d h (snd (fst (peek v s g)))) as [o s'] eqn:ET. cbn [fst] in Ht. subst o.
  destruct (tensor_load_ok _ _ _ _ _ _ ET) as (f & e & m & _ & _ & H3 & _ & H5 & _ & H7 & _).
  split; [exact H5|]. rewrite H3, <- get_size_product. unfold t_size.
  apply (f_equal fst) in H7. cbn [fst] in H7. rewrite <- H7. apply read_values_count. rewrite get_size_product. apply Z.mod_pos_bound. lia.
Qed.
Print Assumptions C55_arbitrary_bytes.
(** Each kind of undefined behaviour is reached by some bytes. *)
Example C55_case :
  let v := mk_env false false (2 ^ 40) in
  let file n text := [147; 78; 85; 77; 80; 89; 1; 0; n; 0] ++ text in
  let load_of b := fst (fst (load v INT32 (open_str b) (zrepeat 0 65536, DTYPE_MAP))) in
  load_of [147; 78; 85] = Undef UninitRead /\
  load_of (file 13 (str "{'descr': '',")) = Undef OutOfBounds /\
  load_of (file 16 (str "{'shape': (3,),}")) = Undef UninitRead /\
  load_of (file 33 (str "{'fortran_order':False,'descr':'x")) = Throw RuntimeError /\
  load_of [147; 78; 85; 77; 80; 89; 3; 0; 0; 0] = Throw RuntimeError.
Proof. cbv zeta. repeat (split; [vm_compute; reflexivity|]). vm_compute. reflexivity. Qed.
