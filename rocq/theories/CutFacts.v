(** Parsing dictionaries in a release build: what can come out, and dictionaries
    that end early. *)
From Coq Require Import String ZArith List Bool Lia.
From Verif Require Import Base Stream BaseFacts Dtype Values Spec ValuesFacts Header HeaderFacts ParseFacts
  ParserInv ParserRel NpyFacts.
Import ListNotations.
Open Scope Z_scope.

(** [m] started in a state with [I] returns with [Q], throws, or is undefined in
    the way [bad] allows. *)
Definition runs {A} (bad : ub -> Prop) (I : pst -> Prop) (m : M pst A) (Q : A -> pst -> Prop) : Prop :=
  forall p, I p -> match m p with
                   | (Ok a, q) => Q a q
                   | (Throw _, _) => True
                   | (AssertFail, _) => False
                   | (Undef u, _) => bad u
                   end.
Lemma runs_bind {A B} bad I (m : M pst A) (k : A -> M pst B) Q R :
  runs bad I m Q -> (forall a, runs bad (Q a) (k a) R) -> runs bad I (bind m k) R.
Proof.
  intros Hm Hk p Hp. specialize (Hm p Hp). unfold bind. destruct (m p) as [[a|e| |u] q]; auto. now apply Hk.
Qed.
Lemma runs_ret {A} bad (I : pst -> Prop) (a : A) : runs bad I (ret a) (fun x q => x = a /\ I q).
Proof. intros p Hp. cbn. auto. Qed.
Lemma runs_post {A} bad I (m : M pst A) (Q R : A -> pst -> Prop) : (forall a q, Q a q -> R a q) -> runs bad I m Q -> runs bad I m R.
Proof. intros H Hm p Hp. specialize (Hm p Hp). destruct (m p) as [[a|e| |u] q]; auto. Qed.

(** Every character still to be read is [ok]. *)
Definition only (ok : Z -> Prop) (p : pst) : Prop := Forall ok (rest (p_in p)).

Lemma Forall_ztake {A} (P : A -> Prop) n l : Forall P l -> Forall P (ztake n l).
Proof. intros H. rewrite <- (ztake_zdrop _ n l) in H. now apply Forall_app in H. Qed.
Lemma Forall_zdrop {A} (P : A -> Prop) n l : Forall P l -> Forall P (zdrop n l).
Proof. intros H. rewrite <- (ztake_zdrop _ n l) in H. now apply Forall_app in H. Qed.

Section Only.
  Variable bad : ub -> Prop.
  Variable ok : Z -> Prop.
  Variable v : env.
  Hypothesis Hrel : dbg v = false.

  Lemma only_get : runs bad (only ok) p_get (fun _ => only ok).
  Proof.
    intros p Hp. unfold p_get, with_in, sget, only in *. destruct (good (p_in p)); [|exact Hp].
    destruct (rest (p_in p)) as [|c r] eqn:E; cbn; [now rewrite E|]. now inversion Hp.
  Qed.
  Lemma only_peek : runs bad (only ok) p_peek (fun c q => only ok q /\ (c = -1 \/ ok c)).
  Proof.
    intros p Hp. unfold p_peek, with_in, speek, only in *. destruct (good (p_in p)); [|cbn; auto].
    destruct (rest (p_in p)) as [|c r] eqn:E; cbn; rewrite E; auto. inversion Hp; auto.
  Qed.
  Lemma only_char c : runs bad (only ok) (p_char v c) (fun _ => only ok).
  Proof.
    unfold p_char. eapply runs_bind; [apply only_get|]. intros a. cbv beta. rewrite Hrel.
    eapply runs_post; [|apply runs_ret]. cbv beta. tauto.
  Qed.
  Lemma only_lit x : runs bad (only ok) (p_lit v x) (fun _ => only ok).
  Proof.
    intros p Hp. unfold p_lit, sread, only in *. rewrite Hrel.
    destruct (good (p_in p)); [|exact Hp].
    destruct (len (ztake (len x) (rest (p_in p))) <? len x); cbn; now apply Forall_zdrop.
  Qed.
  Lemma only_skip : runs bad (only ok) p_skip_ws (fun _ => only ok).
  Proof.
    intros p Hp. unfold p_skip_ws, only in *.
    assert (forall f s, (length (rest s) < f)%nat -> Forall ok (rest s) ->
      exists s', skip_ws_loop f s = (Ok tt, s') /\ Forall ok (rest s')) as H.
    { induction f as [|f IH]; intros s Hf HF; [lia|]. cbn [skip_ws_loop].
      destruct (speek s) as [c s1] eqn:E1. pose proof (speek_len _ _ _ E1) as HR.
      destruct (is_space c) eqn:Es; [|exists s1; rewrite HR; auto].
      unfold speek in E1. unfold sget.
      destruct (good s) eqn:G; [destruct (rest s) as [|y r] eqn:R|]; injection E1 as <- <-; try discriminate Es.
      rewrite G, R. cbn [length] in Hf. apply IH; [cbn; lia|]. cbn. now inversion HF. }
    destruct (H (S (length (rest (p_in p)))) (p_in p) ltac:(lia) Hp) as (s' & E & HF).
    unfold skip_ws. rewrite E. exact HF.
  Qed.
  Lemma take_until_split n d l a b e : take_until n d l = (a, b, e) -> l = a ++ b.
  Proof.
    revert n a b e. induction l as [|c l IH]; intros n a b e; cbn [take_until].
    - now intros [= <- <- <-].
    - destruct (n <=? 0); [now intros [= <- <- <-]|]. destruct (c =? d); [now intros [= <- <- <-]|].
      destruct (take_until (n - 1) d l) as [[a' b'] e'] eqn:E. intros [= <- <- <-].
      cbn. f_equal. eapply IH. exact E.
  Qed.
  Lemma only_read_to d : runs bad (only ok) (p_read_to v d) (fun t q => only ok q /\ Forall ok t).
  Proof.
    unfold p_read_to. eapply runs_bind; [apply only_peek|]. intros c. cbv beta. destruct (c =? d).
    - intros p [Hp _]. cbn. auto.
    - intros p [Hp _]. rewrite Hrel. cbn [andb].
      destruct (sgetbuf BUFFER_SIZE d (p_in p)) as [got s] eqn:E.
      assert (Forall ok got /\ Forall ok (rest s)) as [H1 H2].
      { unfold sgetbuf in E. unfold only in Hp. destruct (good (p_in p)); [|injection E as <- <-; auto].
        destruct (take_until (BUFFER_SIZE - 1) d (rest (p_in p))) as [[a b] e] eqn:ET.
        apply take_until_split in ET. rewrite ET in Hp. apply Forall_app in Hp as [Ha Hb].
        injection E as <- <-. split; [exact Ha|]. destruct a, e; exact Hb. }
      split; [exact H2|]. unfold blit. rewrite <- app_assoc, ztake_app_exact by reflexivity. exact H1.
  Qed.
  Lemma only_string : runs bad (only ok) (p_string v) (fun t q => only ok q /\ Forall ok t).
  Proof.
    unfold p_string. eapply runs_bind; [apply only_char|]. intros ?; cbv beta.
    eapply runs_bind; [apply only_read_to|]. intros t. cbv beta.
    intros p [Hp Ht]. revert p Hp. change (runs bad (only ok) (p_char v 39 ;;; ret t)%monad (fun t q => only ok q /\ Forall ok t)).
    eapply runs_bind; [apply only_char|]. intros ?; cbv beta.
    eapply runs_post; [|apply runs_ret]. cbv beta. intros ? ? [-> H]. auto.
  Qed.
  Lemma only_throw {A} e Q : runs bad (only ok) (@lift pst A (Throw e)) Q.
  Proof. intros p _. exact I. Qed.
  Lemma only_bool : runs bad (only ok) (p_bool v) (fun _ => only ok).
  Proof.
    unfold p_bool. eapply runs_bind; [apply only_peek|]. intros c. cbv beta.
    intros p [Hp _]. revert p Hp. 
    match goal with |- forall p, only ok p -> match ?m p with _ => _ end => change (runs bad (only ok) m (fun _ => only ok)) end.
    destruct (c =? 84).
    - eapply runs_bind; [apply only_lit|]. intros ?; cbv beta. eapply runs_post; [|apply runs_ret]. cbv beta. tauto.
    - eapply runs_bind; [apply only_peek|]. intros c2. cbv beta. intros p [Hp _]. revert p Hp.
      match goal with |- forall p, only ok p -> match ?m p with _ => _ end => change (runs bad (only ok) m (fun _ => only ok)) end.
      destruct (c2 =? 70); [|apply only_throw].
      eapply runs_bind; [apply only_lit|]. intros ?; cbv beta. eapply runs_post; [|apply runs_ret]. cbv beta. tauto.
  Qed.
  Lemma only_shape : runs bad (only ok) (p_shape v) (fun _ => only ok).
  Proof.
    unfold p_shape. eapply runs_bind; [apply only_char|]. intros ?; cbv beta.
    eapply runs_bind; [apply only_read_to|]. intros t. cbv beta.
    intros p [Hp Ht]. revert p Hp.
    match goal with |- forall p, only ok p -> match ?m p with _ => _ end => change (runs bad (only ok) m (fun _ => only ok)) end.
    eapply runs_bind; [apply only_char|]. intros ?; cbv beta. intros p Hp. unfold lift.
    destruct (parse_shape_total t) as [l ->]. exact Hp.
  Qed.
  Lemma stoi_cases l : (exists n, stoi l = Ok n) \/ stoi l = Throw InvalidArgument \/ stoi l = Throw OutOfRange.
  Proof.
    unfold stoi. destruct (match drop_spaces l with [] => _ | _ => _ end) as [neg l2].
    destruct (span_digits l2) as [ds r]. destruct ds; [auto|]. cbv zeta.
    match goal with |- context [if ?b then Throw OutOfRange else _] => destruct b end; eauto.
  Qed.
  Lemma only_descr code : code <> [] -> runs bad (only ok) (p_descr code) (fun _ => only ok).
  Proof.
    intros Hc. unfold p_descr. destruct code as [|c0 t]; [congruence|].
    destruct (match t with [] => _ | _ => _ end).
    - intros p Hp. unfold bind, lift, ret.
      destruct (stoi_cases (zdrop 2 (c0 :: t))) as [[n ->]|[-> | ->]]; auto.
    - intros p Hp. destruct (from_dtype (c0 :: t) (p_map p)) as [[d e] m]. exact Hp.
  Qed.
  (** The rest of an entry after its value. *)
  Lemma only_tail {A} (h : A) : runs bad (only ok) (p_char v 44 ;;; p_skip_ws ;;; ret h)%monad (fun _ => only ok).
  Proof.
    eapply runs_bind; [apply only_char|]. intros ?; cbv beta. eapply runs_bind; [apply only_skip|]. intros ?; cbv beta.
    eapply runs_post; [|apply runs_ret]. cbv beta. tauto.
  Qed.
  Lemma only_entry h : (bad OutOfBounds \/ exists c, In c (str "descr") /\ ~ ok c) ->
    runs bad (only ok) (p_entry v h) (fun _ => only ok).
  Proof.
    intros HB. unfold p_entry. eapply runs_bind; [apply only_skip|]. intros ?; cbv beta.
    eapply runs_bind; [apply only_string|]. intros key. cbv beta.
    intros p [Hp Hk]. revert p Hp.
    match goal with |- forall p, only ok p -> match ?m p with _ => _ end => change (runs bad (only ok) m (fun _ => only ok)) end.
    eapply runs_bind; [apply only_skip|]. intros ?; cbv beta.
    eapply runs_bind; [apply only_char|]. intros ?; cbv beta.
    eapply runs_bind; [apply only_skip|]. intros ?; cbv beta.
    eapply runs_bind with (Q := fun _ => only ok); [|intros h'; apply only_tail].
    destruct (beq key (str "descr")) eqn:E1; [|destruct (beq key (str "fortran_order")); [|destruct (beq key (str "shape"))]].
    - eapply runs_bind; [apply only_string|]. intros code. cbv beta. intros p [Hp _]. revert p Hp.
      match goal with |- forall p, only ok p -> match ?m p with _ => _ end => change (runs bad (only ok) m (fun _ => only ok)) end.
      destruct code as [|c0 code].
      + destruct HB as [HB|(c & HI & HN)].
        * intros p _. exact HB.
        * exfalso. apply beq_eq in E1. subst key. apply HN. rewrite Forall_forall in Hk. now apply Hk.
      + eapply runs_bind; [apply only_descr; discriminate|]. intros [[d e] n]. cbv beta.
        eapply runs_post; [|apply runs_ret]. cbv beta. tauto.
    - eapply runs_bind; [apply only_bool|]. intros b. cbv beta. eapply runs_post; [|apply runs_ret]. cbv beta. tauto.
    - eapply runs_bind; [apply only_shape|]. intros b. cbv beta. eapply runs_post; [|apply runs_ret]. cbv beta. tauto.
    - apply only_throw.
  Qed.
  (** Returning takes a closing brace. *)
  Lemma only_entries fuel : (bad OutOfBounds \/ exists c, In c (str "descr") /\ ~ ok c) ->
    forall h p, (left_ p < fuel)%nat -> only ok p ->
    match fst (p_entries v fuel h p) with
    | Ok _ => ok 125
    | Throw _ => True
    | AssertFail => False
    | Undef u => bad u
    end.
  Proof.
    intros HB. induction fuel as [|f IH]; intros h p Hf Hp; [lia|]. cbn [p_entries]. unfold bind at 1.
    pose proof (only_peek p Hp) as H1. destruct (safe_peek p) as [[HL _] _].
    destruct (p_peek p) as [[c|e| |u] p1]; try exact H1. destruct H1 as [H1 Hc].
    destruct (c =? 125) eqn:E.
    - apply Z.eqb_eq in E. unfold bind. pose proof (only_char 125 p1 H1) as H2.
      destruct (p_char v 125 p1) as [[x|e| |u] p2]; try exact H2. cbn. destruct Hc; [lia|]. now subst c.
    - unfold bind. pose proof (only_entry h HB p1 H1) as H2.
      destruct (p_entry v h p1) as [[h'|e| |u] p2] eqn:E2; try exact H2.
      pose proof (entry_progress _ _ _ _ _ E2) as HP. cbn [snd] in HL. apply IH; [lia|exact H2].
  Qed.
End Only.

(** Any text, release build: nothing but a header, an exception, or an empty type code. *)
Lemma parse_dictionary_release_outcomes v text g : dbg v = false ->
  match fst (parse_dictionary v text g) with
  | Ok _ => In 125 text
  | Throw _ => True
  | AssertFail => False
  | Undef u => u = OutOfBounds
  end.
Proof.
  intros Hrel. unfold parse_dictionary.
  set (p := mk_pst (open_str text) (fst g) (snd g)).
  assert (only (fun c => In c text) p) as Hp by (unfold only; apply Forall_forall; auto).
  destruct ((p_char v 123 ;;; p_entries v (S (length text)) header_uninit)%monad p) as [o q] eqn:E.
  cbn [fst]. unfold bind in E.
  pose proof (only_char (fun u => u = OutOfBounds) _ v Hrel 123 p Hp) as H1.
  destruct (safe_char v 123 p) as [[HL _] _]. unfold left_ in HL at 2. cbn [p p_in open_str rest] in HL.
  destruct (p_char v 123 p) as [[x|e| |u] p1]; try (injection E as <- <-; exact H1).
  pose proof (only_entries (fun u => u = OutOfBounds) _ v Hrel (S (length text)) (or_introl eq_refl) header_uninit p1
    ltac:(cbn [snd] in HL; lia) H1) as H2.
  rewrite E in H2. exact H2.
Qed.

(** *** Dictionaries that end early and go on with NULs *)
(** Neither a closing brace nor the letter c, which "descr" needs. *)
Definition plain (c : Z) : Prop := c <> 125 /\ c <> 99.
Lemma Forall_and2 {A} (P Q : A -> Prop) l : Forall P l -> Forall Q l -> Forall (fun x => P x /\ Q x) l.
Proof. intros H1 H2. apply Forall_forall. intros x Hx. rewrite Forall_forall in H1, H2. auto. Qed.
Lemma plain_spell z : Forall plain (spell z).
Proof. apply Forall_and2; apply spell_no; lia. Qed.
Lemma plain_tuple l : Forall plain (tuple_body l).
Proof.
  unfold tuple_body. apply Forall_app. split; [|destruct (length l =? 1)%nat; repeat constructor; discriminate].
  induction l as [|x l IH]; [constructor|]. cbn [map join_comma]. destruct l as [|y l]; [apply plain_spell|].
  cbn [map] in *. apply Forall_app. split; [apply plain_spell|]. apply Forall_app.
  split; [repeat constructor; discriminate|exact IH].
Qed.

(** The dictionary after its type code, without the brace. *)
Definition after_code (f : bool) (sh : list Z) : bytes :=
  str ", 'fortran_order': " ++ (if f then str "True" else str "False") ++ str ", 'shape': (" ++ tuple_body sh ++ str "), ".
Lemma plain_after_code f sh : Forall plain (after_code f sh).
Proof.
  assert (forall c, In c (str ", 'fortran_order': TrueFalse, 'shape': (), ") -> plain c) as HS.
  { intros c Hc. cbn in Hc. unfold plain. lia. }
  assert (forall l, (forall c, In c l -> In c (str ", 'fortran_order': TrueFalse, 'shape': (), ")) -> Forall plain l) as HI.
  { intros l H. apply Forall_forall. auto. }
  unfold after_code.
  apply Forall_app; split; [apply HI; cbn; intros; tauto|]. apply Forall_app; split; [apply HI; destruct f; cbn; intros; tauto|].
  apply Forall_app; split; [apply HI; cbn; intros; tauto|]. apply Forall_app; split; [apply plain_tuple|].
  apply HI; cbn; intros; tauto.
Qed.
Lemma python_dict_parts code f sh :
  python_dict code f sh = str "{'descr': '" ++ code ++ 39 :: after_code f sh ++ [125].
Proof.
  unfold python_dict, dict_text, standard_entries, entry_text, after_code.
  cbn [flat_map before_key before_colon after_colon after_comma value key_text value_text].
  destruct f; cbn [str map list_ascii_of_string app]; repeat (rewrite <- app_assoc; cbn [app]); reflexivity.
Qed.

Section Cut.
  Variable v : env.
  Hypothesis Hrel : dbg v = false.
  Variable s : istream.
  Hypothesis Hgood : good s = true.

  Lemma skip_none c r b m : is_space c = false -> c <> -1 ->
    p_skip_ws (at_ s (c :: r) b m) = (Ok tt, at_ s (c :: r) b m).
  Proof. intros H1 H2. apply (p_skip_ws_at s Hgood [] c r b m); [constructor|exact H1|exact H2]. Qed.
  (** A type code whose closing quote may be missing. *)
  Lemma string_cut A B b m : A <> [] -> Forall (fun c => c <> 39) A -> len A < 65535 ->
    (B = [] \/ exists B', B = 39 :: B' /\ Forall plain B') ->
    exists q, p_string v (at_ s (39 :: A ++ B) b m) = (Ok A, q) /\ only plain q.
  Proof.
    intros HA HQ HL [-> | (B' & -> & HB)].
    - rewrite app_nil_r. unfold p_string. unfold bind at 1. rewrite p_char_at by (auto; lia).
      destruct A as [|c A]; [congruence|]. inversion HQ as [|? ? Hc HQ']; subst.
      unfold bind at 1. unfold p_read_to, bind at 1. rewrite p_peek_at by exact Hgood.
      assert ((c =? 39) = false) as -> by (apply Z.eqb_neq; exact Hc).
      unfold at_ at 1. cbn [p_in p_buf p_map]. unfold sgetbuf.
      change (good (set_rest s (c :: A))) with (good s). rewrite Hgood. cbn [rest set_rest].
      assert (forall l n, len l < n -> Forall (fun c => c <> 39) l -> take_until n 39 l = (l, [], true)) as HT.
      { induction l as [|x l IH]; intros n Hn HF; [reflexivity|]. cbn [take_until]. rewrite len_cons in Hn.
        pose proof (len_nonneg _ l). inversion HF; subst. destruct (n <=? 0) eqn:E1; [lia|].
        destruct (x =? 39) eqn:E2; [lia|]. rewrite IH by (auto; lia). reflexivity. }
      rewrite HT by (auto; unfold BUFFER_SIZE; lia).
      rewrite Hrel. cbn [andb]. rewrite blit_ztake.
      unfold bind, p_char, bind, p_get, with_in, ret. cbn [p_in p_buf p_map]. rewrite Hrel.
      eexists. split.
      + unfold sget, good. cbn. reflexivity.
      + apply Forall_nil.
    - destruct (p_string_at v s Hgood A B' b m HQ HL) as [b' ->]. eexists. split; [reflexivity|]. exact HB.
  Qed.

  Lemma entries_cut A B b m fuel : A <> [] -> Forall (fun c => c <> 39) A -> len A < 65535 ->
    (B = [] \/ exists B', B = 39 :: B' /\ Forall plain B') ->
    (length (str "'descr': '" ++ A ++ B) < fuel)%nat ->
    exists x, fst (p_entries v fuel header_uninit (at_ s (str "'descr': '" ++ A ++ B) b m)) = Throw x.
  Proof.
    intros HA HQ HL HB HF. destruct fuel as [|fuel]; [lia|]. cbn [p_entries].
    change (str "'descr': '" ++ A ++ B) with (39 :: str "descr': '" ++ A ++ B).
    unfold bind at 1. rewrite p_peek_at by exact Hgood. change (39 =? 125) with false. cbv iota.
    set (p := at_ s (39 :: str "descr': '" ++ A ++ B) b m).
    assert (runs (fun _ => False) (fun q => q = p) (p_entry v header_uninit) (fun _ => only plain)) as HR.
    { intros q ->. unfold p_entry. unfold bind at 1. unfold p at 1.
      rewrite skip_none by (auto; lia).
      change (39 :: str "descr': '" ++ A ++ B) with (39 :: str "descr" ++ 39 :: str ": '" ++ A ++ B).
      unfold bind at 1. destruct (p_string_at v s Hgood (str "descr") (str ": '" ++ A ++ B) b m) as [b1 ->];
        [repeat constructor; discriminate|reflexivity|].
      unfold bind at 1. change (str ": '" ++ A ++ B) with (58 :: str " " ++ 39 :: A ++ B).
      rewrite skip_none by (auto; lia).
      unfold bind at 1. rewrite p_char_at by (auto; lia).
      unfold bind at 1. rewrite (p_skip_ws_at s Hgood (str " ") 39) by (auto; try (repeat constructor); lia).
      change (beq (str "descr") (str "descr")) with true. cbv iota.
      unfold bind at 1. unfold bind at 1. destruct (string_cut A B b1 m HA HQ HL HB) as (q & -> & Hq).
      pose proof (only_descr (fun _ => False) plain A HA q Hq) as HD. unfold bind at 1.
      destruct (p_descr A q) as [[[[d e] n]|x| |u] q2]; try exact HD.
      unfold ret at 1.
      exact (only_tail (fun _ => False) plain v Hrel (mk_header (Some d) (Some e) (h_fortran header_uninit) (h_shape header_uninit) (Some n)) q2 HD). }
    unfold bind. specialize (HR p eq_refl).
    destruct (p_entry v header_uninit p) as [[h|x| |u] q] eqn:E; try (exfalso; exact HR); [|eexists; reflexivity].
    pose proof (entry_progress _ _ _ _ _ E) as HP.
    assert (left_ q < fuel)%nat as HF2.
    { unfold left_ in *. unfold p, at_ in HP. cbn [p_in rest set_rest] in HP. cbn [str map list_ascii_of_string app length] in HF, HP. lia. }
    pose proof (only_entries (fun _ => False) plain v Hrel fuel) as HO.
    assert (exists c, In c (str "descr") /\ ~ plain c) as HX
      by (exists 99; split; [cbn; auto 10|intros [_ H]; now apply H]).
    specialize (HO (or_intror HX) h q HF2 HR).
    destruct (p_entries v fuel h q) as [[h'|x| |u] q']; cbn [fst] in *; try (exfalso; exact HO).
    - exfalso. destruct HO as [HO _]. now apply HO.
    - eexists. reflexivity.
  Qed.
End Cut.

Lemma Forall_zrepeat {A} (P : A -> Prop) (x : A) n : P x -> Forall P (zrepeat x n).
Proof. intros H. unfold zrepeat. apply Forall_forall. intros y Hy. apply repeat_spec in Hy. now subst. Qed.

(** A dictionary cut before its closing brace, the reader's zero-filled buffer behind it. *)
Lemma parse_cut v g code d e k f sh j N :
  dbg v = false -> map_ok (snd g) -> descr_denotes code d e k ->
  In N [54; 118; 182; 246] -> len (python_dict code f sh) < N -> 0 <= j < len (python_dict code f sh) ->
  exists x, fst (parse_dictionary v (ztake j (python_dict code f sh) ++ zrepeat 0 (N - j)) g) = Throw x.
Proof.
  intros Hrel Hm Hd HN HL Hj.
  set (D := python_dict code f sh) in *.
  assert (D = str "{'descr': '" ++ code ++ 39 :: after_code f sh ++ [125]) as HD by apply python_dict_parts.
  destruct (Z_le_gt_dec j 11) as [H11|H11].
  - (* inside {'descr': ' : finitely many texts *)
    assert (ztake j D = ztake j (str "{'descr': '")) as ->.
    { rewrite HD. apply ztake_app_le. change (len (str "{'descr': '")) with 11. lia. }
    rewrite (parse_dictionary_indep v _ g ([], DTYPE_MAP) Hm map_ok_init).
    destruct v as [hb db mm]. cbn [dbg] in Hrel. subst db. clear -Hj H11 HN.
    assert (j = 0 \/ j = 1 \/ j = 2 \/ j = 3 \/ j = 4 \/ j = 5 \/ j = 6 \/ j = 7 \/ j = 8 \/ j = 9 \/ j = 10 \/ j = 11)
      as HJ by lia.
    exists RuntimeError. cbn [In] in HN.
    destruct HN as [<-|[<-|[<-|[<-|[]]]]];
      repeat (destruct HJ as [-> | HJ]; [vm_compute; reflexivity|]); subst j; vm_compute; reflexivity.
  - (* behind it *)
    set (Q := ztake (j - 11) (code ++ 39 :: after_code f sh)).
    set (Z0 := zrepeat 0 (N - j)).
    destruct (descr_code_ok _ _ _ _ Hd) as [HC1 HC2].
    assert (code <> []) as HC0.
    { destruct Hd as [d0 big Hd0|big n Hn]; [destruct big, d0; discriminate|destruct big; discriminate]. }
    assert (len D = 11 + len code + 1 + len (after_code f sh) + 1) as HDL.
    { rewrite HD. lens. change (len (str "{'descr': '")) with 11. lia. }
    assert (ztake j D = str "{'descr': '" ++ Q) as ->.
    { rewrite HD. rewrite ztake_app_ge by (change (len (str "{'descr': '")) with 11; lia).
      change (len (str "{'descr': '")) with 11. f_equal. unfold Q.
      change (code ++ 39 :: after_code f sh ++ [125]) with (code ++ (39 :: after_code f sh) ++ [125]).
      rewrite app_assoc. apply ztake_app_le. lens. lia. }
    assert (Forall plain Z0) as HZp by (apply Forall_zrepeat; unfold plain; lia).
    assert (Forall (fun c => c <> 39) Z0) as HZq by (apply Forall_zrepeat; lia).
    assert (exists A B, Q ++ Z0 = A ++ B /\ A <> [] /\ Forall (fun c => c <> 39) A /\ len A < 65535 /\
      (B = [] \/ exists B', B = 39 :: B' /\ Forall plain B')) as (A & B & HAB & HA & HQ & HAL & HB).
    { destruct (Z_le_gt_dec (j - 11) (len code)) as [Hin|Hout].
      - exists (Q ++ Z0), []. unfold Q. rewrite ztake_app_le by lia. rewrite app_nil_r.
        split; [reflexivity|]. split; [|split; [|split; [|now left]]].
        + intros H. apply app_eq_nil in H as [H _]. apply (f_equal len) in H. rewrite len_ztake in H.
          change (len (@nil Z)) with 0 in H. lia.
        + apply Forall_app. split; [now apply Forall_ztake|exact HZq].
        + unfold Z0. rewrite len_app, len_ztake, len_zrepeat. cbn [In] in HN. lia.
      - exists code. eexists. unfold Q. rewrite ztake_app_ge by lia. rewrite <- app_assoc.
        split; [reflexivity|]. split; [exact HC0|]. split; [exact HC1|]. split; [exact HC2|]. right.
        exists (ztake (j - 11 - len code - 1) (after_code f sh) ++ Z0).
        change (39 :: after_code f sh) with ([39] ++ after_code f sh).
        rewrite ztake_app_ge by (change (len [39]) with 1; lia). split; [reflexivity|].
        apply Forall_app. split; [apply Forall_ztake, plain_after_code|exact HZp]. }
    rewrite <- app_assoc. rewrite HAB.
    unfold parse_dictionary. set (T := str "{'descr': '" ++ A ++ B).
    assert (T = 123 :: str "'descr': '" ++ A ++ B) as HT by reflexivity.
    change (mk_pst (open_str T) (fst g) (snd g)) with (at_ (open_str T) T (fst g) (snd g)).
    replace (at_ (open_str T) T) with (at_ (open_str T) (123 :: str "'descr': '" ++ A ++ B)) by (now rewrite <- HT).
    unfold bind at 1. rewrite p_char_at by (auto; lia).
    destruct (entries_cut v Hrel (open_str T) eq_refl A B (fst g) (snd g) (S (length T)) HA HQ HAL HB) as [x Hx].
    { rewrite HT. cbn [length]. lia. }
    destruct (p_entries v (S (length T)) header_uninit (at_ (open_str T) (str "'descr': '" ++ A ++ B) (fst g) (snd g))) as [o q].
    cbn [fst] in *. eauto.
Qed.
