(** The dictionary parser accepts every layout of well-formed entries. *)
From Coq Require Import String ZArith List Bool Lia.
From Verif Require Import Base Stream BaseFacts Dtype Values Spec ValuesFacts Header HeaderFacts.
Import ListNotations.
Open Scope Z_scope.

(** What a sequence of entries makes of a header: later entries win. *)
Inductive sets : list field_value -> header_info -> header_info -> Prop :=
| sets_nil h : sets [] h h
| sets_descr c d e n t h h' : descr_denotes c d e n ->
    sets t (mk_header (Some d) (Some e) (h_fortran h) (h_shape h) (Some n)) h' ->
    sets (FDescr c :: t) h h'
| sets_order b t h h' :
    sets t (mk_header (h_dtype h) (h_endian h) (Some b) (h_shape h) (h_maxlen h)) h' ->
    sets (FOrder b :: t) h h'
| sets_shape l t h h' :
    sets t (mk_header (h_dtype h) (h_endian h) (h_fortran h) (read_dims l) (h_maxlen h)) h' ->
    sets (FShape l :: t) h h'.

Definition core (e : entry) : bytes :=
  39 :: key_text (value e) ++ 39 :: before_colon e ++ 58 :: after_colon e
  ++ value_text (value e) ++ [44].
Lemma entry_text_core e : entry_text e = before_key e ++ core e ++ after_comma e.
Proof.
  unfold entry_text, core. cbn [str map list_ascii_of_string app].
  repeat (rewrite <- app_assoc; cbn [app]). reflexivity.
Qed.

Lemma is_space_blank w : blank w -> Forall (fun c => is_space c = true) w.
Proof. apply Forall_impl. unfold is_space. intros c. lia. Qed.
Lemma blank_app a b : blank a -> blank b -> blank (a ++ b).
Proof. intros. now apply Forall_app. Qed.

Lemma spell_no z x : x < 45 \/ 57 < x -> Forall (fun c => c <> x) (spell z).
Proof.
  intros Hx. unfold spell. destruct (z <? 0) eqn:E.
  - constructor; [lia|]. eapply Forall_impl; [|apply dec_digits; lia]. unfold digitb. intros. lia.
  - eapply Forall_impl; [|apply dec_digits; lia]. unfold digitb. intros. lia.
Qed.
Lemma tuple_body_no41 l : Forall (fun c => c <> 41) (tuple_body l).
Proof.
  unfold tuple_body. apply Forall_app. split.
  - induction l as [|z [|z2 l] IH]; cbn [map join_comma]; [constructor| apply spell_no; lia |].
    apply Forall_app. split; [apply spell_no; lia|]. apply Forall_app. split; [|exact IH].
    repeat constructor; discriminate.
  - destruct (length l =? 1)%nat; repeat constructor. discriminate.
Qed.

Lemma stoi_dec n : 0 <= n <= 2147483647 -> stoi (dec n) = Ok n.
Proof.
  intros H. unfold stoi. pose proof (dec_digits n ltac:(lia)) as HF. pose proof (dec_nonempty n) as HN.
  pose proof (dec_value n ltac:(lia)) as HV.
  destruct (dec n) as [|c t] eqn:E; [congruence|]. pose proof (Forall_inv HF) as Hc.
  rewrite drop_spaces_nonspace by now apply digit_not_space.
  assert (span_digits (c :: t) = (c :: t, [])) as HS.
  { rewrite <- (app_nil_r (c :: t)) at 1. now apply span_digits_app. }
  unfold digitb in Hc.
  destruct (c =? 45) eqn:E1; [lia|]. destruct (c =? 43) eqn:E2; [lia|].
  rewrite HS, HV.
  destruct ((n <? -2147483648) || (n >? 2147483647)) eqn:E3; [lia|reflexivity].
Qed.

Lemma descr_code_ok c d e n : descr_denotes c d e n ->
  Forall (fun x => x <> 39) c /\ len c < 65535.
Proof.
  intros H. destruct H as [d big Hd|big n Hn].
  - split.
    + destruct d; try congruence; destruct big; vm_compute; repeat constructor; discriminate.
    + destruct d; try congruence; destruct big; vm_compute; reflexivity.
  - split.
    + apply Forall_app. split; [destruct big; repeat constructor; discriminate|].
      eapply Forall_impl; [|apply dec_digits; lia]. unfold digitb. intros. lia.
    + lens. assert (len (dec n) <= 10) by (apply dec_len_aux; lia).
      assert (len (if big then str ">U" else str "<U") = 2) by (destruct big; reflexivity). lia.
Qed.

Lemma p_descr_at p c d e n : descr_denotes c d e n -> map_ok (p_map p) ->
  exists m', p_descr c p = (Ok (d, e, n), mk_pst (p_in p) (p_buf p) m') /\ map_ok m'.
Proof.
  intros H Hm. destruct H as [d big Hd|big n Hn].
  - pose proof (numpy_descr_lookup d big Hd) as HL. rewrite <- (Hm _) in HL.
    pose proof (map_ok_step (numpy_descr d big) _ Hm) as HS.
    unfold p_descr. unfold numpy_descr in *. cbn [app] in *.
    assert (kind_char d =? 85 = false) as -> by (destruct d; try congruence; reflexivity).
    destruct (from_dtype _ (p_map p)) as [[d' e'] m'] eqn:E. cbn [fst snd] in *.
    injection HL as -> ->. eauto.
  - exists (p_map p). split; [|exact Hm].
    assert (p_descr ((if big then str ">U" else str "<U") ++ dec n) p
            = (n0 <- lift (stoi (dec n)) ;; ret (UNICODE_STRING, if big then BIG else LITTLE, u64 n0))%monad p) as ->.
    { assert (forall (a b : Z) l, zdrop 2 (a :: b :: l) = l) as HZ by (intros ? ? []; reflexivity).
      unfold p_descr. destruct big; cbn [str app map list_ascii_of_string]; rewrite HZ; reflexivity. }
    rewrite stoi_dec by lia. unfold bind, lift, ret. rewrite u64_small by (unfold max64; lia).
    now destruct p.
Qed.

Section Entries.
  Variable v : env.
  Variable s : istream.
  Hypothesis Hgood : good s = true.

  Lemma p_lit_at x r b m : exists b', p_lit v x (at_ s (x ++ r) b m) = (Ok tt, at_ s r b' m).
  Proof.
    unfold p_lit, at_. cbn [p_in p_buf p_map].
    rewrite (sread_app (set_rest s (x ++ r)) x r) by auto.
    assert (beq (ztake (len x) (blit x b)) x = true) as ->.
    { apply beq_eq. unfold blit. now rewrite ztake_app_exact. }
    exists (blit x b). destruct (dbg v); reflexivity.
  Qed.
  Lemma p_bool_at (f : bool) r b m :
    exists b', p_bool v (at_ s ((if f then str "True" else str "False") ++ r) b m) = (Ok f, at_ s r b' m).
  Proof.
    unfold p_bool. destruct f.
    - destruct (p_lit_at (str "True") r b m) as [b' H]. exists b'.
      unfold bind at 1. change (str "True" ++ r) with (84 :: str "rue" ++ r) at 1.
      rewrite p_peek_at by auto. change (84 =? 84) with true. cbv iota.
      change (84 :: str "rue" ++ r) with (str "True" ++ r).
      unfold bind. rewrite H. reflexivity.
    - destruct (p_lit_at (str "False") r b m) as [b' H]. exists b'.
      unfold bind at 1. change (str "False" ++ r) with (70 :: str "alse" ++ r) at 1.
      rewrite p_peek_at by auto. change (70 =? 84) with false. cbv iota.
      unfold bind at 1. rewrite p_peek_at by auto. change (70 =? 70) with true. cbv iota.
      change (70 :: str "alse" ++ r) with (str "False" ++ r).
      unfold bind. rewrite H. reflexivity.
  Qed.
  Lemma p_shape_at l r b m : len (tuple_body l) < 65535 ->
    exists b', p_shape v (at_ s (40 :: tuple_body l ++ 41 :: r) b m) = (Ok (take_fitting l), at_ s r b' m).
  Proof.
    intros HL. unfold p_shape. unfold bind at 1. rewrite p_char_at by (auto; lia).
    destruct (p_read_to_at v s Hgood 41 (tuple_body l) r b m (tuple_body_no41 l) HL) as [b' H].
    exists b'. unfold bind at 1. rewrite H. unfold bind. rewrite p_char_at by (auto; lia).
    unfold lift. now rewrite parse_shape_text.
  Qed.

  Lemma p_entry_at e w w' c r b m h :
    blank w -> blank w' -> layout_ok e -> field_ok (value e) -> map_ok m ->
    is_space c = false -> c <> -1 ->
    exists b' m' h1, p_entry v h (at_ s (w ++ core e ++ w' ++ c :: r) b m) = (Ok h1, at_ s (c :: r) b' m') /\
      map_ok m' /\ forall t h', sets t h1 h' -> sets (value e :: t) h h'.
  Proof.
    intros Hw Hw' (_ & Hbc & Hac & _) Hf Hm Hc Hc2. unfold p_entry, core.
    cbn [app]. unfold bind at 1. rewrite p_skip_ws_at by (auto; lia).
    assert (Forall (fun x => x <> 39) (key_text (value e)) /\ len (key_text (value e)) < 65535) as [HK1 HK2].
    { destruct (value e); (split; [repeat constructor; discriminate|reflexivity]). }
    repeat (rewrite <- app_assoc; cbn [app]).
    destruct (p_string_at v s Hgood (key_text (value e))
                (before_colon e ++ 58 :: after_colon e ++ value_text (value e) ++ 44 :: w' ++ c :: r) b m HK1 HK2) as [b1 H1].
    unfold bind at 1. rewrite H1. unfold bind at 1. rewrite p_skip_ws_at by (auto; lia).
    unfold bind at 1. rewrite p_char_at by (auto; lia).
    assert (exists x y, value_text (value e) = x :: y /\ is_space x = false /\ x <> -1) as (x & y & HV & Hx1 & Hx2).
    { destruct (value e) as [cd|[]|l]; cbn [value_text].
      - exists 39. eexists. split; [reflexivity|]. split; [reflexivity|lia].
      - eexists _, _. split; [reflexivity|]. split; [reflexivity|lia].
      - eexists _, _. split; [reflexivity|]. split; [reflexivity|lia].
      - exists 40. eexists. split; [reflexivity|]. split; [reflexivity|lia]. }
    unfold bind at 1. rewrite HV. cbn [app]. rewrite p_skip_ws_at by (auto; lia).
    rewrite (app_comm_cons y). rewrite <- HV. clear HV.
    (* the tail common to the three cases *)
    assert (forall (h1 : header_info) b2 m2, (p_char v 44 ;;; p_skip_ws ;;; ret h1)%monad (at_ s (44 :: w' ++ c :: r) b2 m2)
              = (Ok h1, at_ s (c :: r) b2 m2)) as HT.
    { intros. unfold bind at 1. rewrite p_char_at by (auto; lia). unfold bind.
      rewrite p_skip_ws_at by (auto; lia). reflexivity. }
    destruct (value e) as [cd|f|l]; cbn [key_text value_text field_ok] in *.
    - change (beq (str "descr") (str "descr")) with true. cbv iota.
      destruct Hf as (d & en & n & Hd). destruct (descr_code_ok _ _ _ _ Hd) as [HC1 HC2].
      change (str "'") with [39]. repeat (rewrite <- app_assoc; cbn [app]).
      destruct (p_string_at v s Hgood cd (44 :: w' ++ c :: r) b1 m HC1 HC2) as [b2 H2].
      destruct (p_descr_at (at_ s (44 :: w' ++ c :: r) b2 m) cd d en n Hd Hm) as (m' & H3 & Hm').
      unfold bind at 1. unfold bind at 1. rewrite H2. unfold bind at 1. rewrite H3.
      cbn [p_in p_buf at_]. change (mk_pst (set_rest s (44 :: w' ++ c :: r)) b2 m') with (at_ s (44 :: w' ++ c :: r) b2 m').
      unfold ret at 1. rewrite HT. eexists _, _, _. split; [reflexivity|]. split; [exact Hm'|].
      intros. eapply sets_descr; eauto.
    - change (beq (str "fortran_order") (str "descr")) with false.
      change (beq (str "fortran_order") (str "fortran_order")) with true. cbv iota.
      destruct (p_bool_at f (44 :: w' ++ c :: r) b1 m) as [b2 H2].
      exists b2, m, (mk_header (h_dtype h) (h_endian h) (Some f) (h_shape h) (h_maxlen h)).
      split; [|split; [exact Hm|intros; eapply sets_order; eauto]].
      destruct f; cbv iota in H2 |- *; unfold bind at 1; unfold bind at 1; rewrite H2; unfold ret at 1; apply HT.
    - change (beq (str "shape") (str "descr")) with false.
      change (beq (str "shape") (str "fortran_order")) with false.
      change (beq (str "shape") (str "shape")) with true. cbv iota.
      rename Hf into HL. change (str "(") with [40]. change (str ")") with [41].
      repeat (rewrite <- app_assoc; cbn [app]).
      destruct (p_shape_at l (44 :: w' ++ c :: r) b1 m HL) as [b2 H2].
      unfold bind at 1. unfold bind at 1. rewrite H2. unfold ret at 1. rewrite HT.
      rewrite take_fitting_dims.
      eexists _, _, _. split; [reflexivity|]. split; [exact Hm|]. intros. eapply sets_shape; eauto.
  Qed.

  Definition stripped (es : list entry) (tail : bytes) : bytes :=
    match es with
    | [] => 125 :: tail
    | e :: t => core e ++ after_comma e ++ flat_map entry_text t ++ 125 :: tail
    end.
  Lemma text_stripped es tail : Forall layout_ok es ->
    exists w, blank w /\ flat_map entry_text es ++ 125 :: tail = w ++ stripped es tail /\ (es = [] -> w = []).
  Proof.
    intros H. destruct es as [|e es].
    - exists []. repeat split; constructor.
    - inversion H as [|? ? Hl _]; subst. exists (before_key e).
      split; [apply Hl|]. split; [|discriminate]. cbn [flat_map stripped].
      rewrite entry_text_core. now rewrite <- !app_assoc.
  Qed.
  Lemma stripped_head es tail : exists c r, stripped es tail = c :: r /\ is_space c = false /\ c <> -1 /\
    (c = 125 <-> es = []).
  Proof.
    destruct es as [|e es]; cbn [stripped].
    - exists 125. eexists. repeat split; auto; lia.
    - exists 39. eexists. unfold core. cbn [app]. repeat split; auto; try lia; discriminate.
  Qed.

  Lemma p_entries_at es : forall fuel w h b m tail,
    blank w -> (es = [] -> w = []) -> Forall layout_ok es -> Forall (fun e => field_ok (value e)) es ->
    map_ok m -> (length es < fuel)%nat ->
    exists b' m' h', p_entries v fuel h (at_ s (w ++ stripped es tail) b m) = (Ok h', at_ s tail b' m') /\
      map_ok m' /\ sets (map value es) h h'.
  Proof.
    induction es as [|e es IH]; intros fuel w h b m tail Hw Hw0 HL HF Hm Hfuel; (destruct fuel; [lia|]); cbn [p_entries].
    - rewrite Hw0 by reflexivity. cbn [app stripped]. unfold bind at 1. rewrite p_peek_at by auto.
      change (125 =? 125) with true. cbv iota. unfold bind. rewrite p_char_at by (auto; lia).
      eexists _, _, _. split; [reflexivity|]. split; [exact Hm|constructor].
    - inversion HL as [|? ? HL1 HL2]; inversion HF as [|? ? HF1 HF2]; subst.
      assert (exists c r, w ++ stripped (e :: es) tail = c :: r /\ c <> 125) as (c & r & Hcr & Hc).
      { destruct w as [|c w].
        - destruct (stripped_head (e :: es) tail) as (c & r & Hs & _ & _ & Hc). exists c, r. split; [exact Hs|].
          intros ->. destruct Hc as [Hc _]. discriminate (Hc eq_refl).
        - exists c. eexists. split; [reflexivity|]. inversion Hw; subst. lia. }
      unfold bind at 1. rewrite Hcr, p_peek_at by auto. destruct (c =? 125) eqn:E; [lia|].
      rewrite <- Hcr. cbn [stripped].
      destruct (text_stripped es tail HL2) as (w2 & Hw2 & HT & Hw2').
      rewrite HT. destruct (stripped_head es tail) as (c2 & r2 & Hs2 & Hsp & Hne & _).
      rewrite Hs2. rewrite (app_assoc (after_comma e)).
      destruct (p_entry_at e w (after_comma e ++ w2) c2 r2 b m h) as (b1 & m1 & h1 & H1 & Hm1 & HS); auto.
      { apply blank_app; auto. apply HL1. }
      unfold bind at 1. rewrite H1. rewrite <- Hs2.
      destruct (IH fuel [] h1 b1 m1 tail) as (b' & m' & h' & H2 & Hm' & HS2); auto; try constructor.
      { cbn [length] in Hfuel. lia. }
      cbn [app] in H2. rewrite H2. exists b', m', h'. split; [reflexivity|]. split; [exact Hm'|].
      cbn [map]. apply HS. exact HS2.
  Qed.
End Entries.

Lemma length_entry_text e : (1 <= length (entry_text e))%nat.
Proof. rewrite entry_text_core, !app_length. cbn. lia. Qed.
Lemma length_entries es : (length es <= length (flat_map entry_text es))%nat.
Proof.
  induction es as [|e es IH]; [cbn; lia|]. cbn [flat_map length]. rewrite app_length.
  pose proof (length_entry_text e). lia.
Qed.

Theorem parse_dictionary_text v es tail g :
  Forall layout_ok es -> Forall (fun e => field_ok (value e)) es -> map_ok (snd g) ->
  exists h g', parse_dictionary v (dict_text es tail) g = (Ok h, g') /\ map_ok (snd g') /\
    sets (map value es) header_uninit h.
Proof.
  intros HL HF Hm. unfold parse_dictionary, dict_text.
  change (str "{") with [123]. change (str "}") with [125]. cbn [app].
  set (d := 123 :: flat_map entry_text es ++ 125 :: tail).
  change (mk_pst (open_str d) (fst g) (snd g)) with (at_ (open_str d) d (fst g) (snd g)).
  unfold bind at 1. assert (d = 123 :: flat_map entry_text es ++ 125 :: tail) as Ed by reflexivity.
  replace (at_ (open_str d) d (fst g) (snd g)) with
    (at_ (open_str d) (123 :: flat_map entry_text es ++ 125 :: tail) (fst g) (snd g)) by now rewrite <- Ed.
  rewrite p_char_at by (auto; lia).
  destruct (text_stripped es tail HL) as (w & Hw & HT & Hw0). rewrite HT.
  destruct (p_entries_at v (open_str d) eq_refl es (S (length d)) w header_uninit (fst g) (snd g) tail)
    as (b' & m' & h' & H & Hm' & HS); auto.
  { unfold d. cbn [length]. rewrite app_length. pose proof (length_entries es). lia. }
  rewrite H. exists h', (b', m'). auto.
Qed.

(** The relation [sets] is a function. *)
Lemma numpy_descr_inj d1 b1 d2 b2 : d1 <> UNICODE_STRING -> d2 <> UNICODE_STRING ->
  numpy_descr d1 b1 = numpy_descr d2 b2 -> d1 = d2 /\ recorded_order d1 b1 = recorded_order d2 b2.
Proof.
  intros H1 H2 E.
  pose proof (numpy_descr_lookup d1 b1 H1) as A. pose proof (numpy_descr_lookup d2 b2 H2) as B.
  rewrite E in A. rewrite A in B. injection B as -> ->. auto.
Qed.
Lemma denotes_fun c d e n d' e' n' : descr_denotes c d e n -> descr_denotes c d' e' n' ->
  d = d' /\ e = e' /\ n = n'.
Proof.
  intros H H'. destruct H as [d big Hd|big n Hn].
  - remember (numpy_descr d big) as c eqn:E. destruct H' as [d2 big2 Hd2|big2 n2 Hn2].
    + destruct (numpy_descr_inj _ _ _ _ Hd2 Hd E) as [-> ->]. auto.
    + exfalso. unfold numpy_descr in E. destruct big2; cbn in E; injection E as _ E _;
        destruct d; cbn in E; congruence.
  - remember ((if big then str ">U" else str "<U") ++ dec n) as c eqn:E.
    destruct H' as [d2 big2 Hd2|big2 n2 Hn2].
    + exfalso. unfold numpy_descr in E. destruct big; cbn in E; injection E as _ E _;
        destruct d2; cbn in E; congruence.
    + destruct big, big2; cbn in E; try discriminate; injection E as E;
        apply dec_inj in E; try lia; subst; auto.
Qed.
Lemma sets_fun l h h1 h2 : sets l h h1 -> sets l h h2 -> h1 = h2.
Proof.
  intros A. revert h2. induction A; intros h2 B; inversion B; subst; auto.
  match goal with H1 : descr_denotes c _ _ _, H2 : descr_denotes c _ _ _ |- _ =>
    destruct (denotes_fun _ _ _ _ _ _ _ H1 H2) as (-> & -> & ->) end. auto.
Qed.
