(** Whole-parser facts that hold for every input: progress, invariants of the
    globals, independence of stale globals, debug/release agreement. *)
From Coq Require Import String ZArith List Bool Lia.
From Verif Require Import Base Stream BaseFacts Dtype Values Spec ValuesFacts Header HeaderFacts ParseFacts.
Import ListNotations.
Open Scope Z_scope.

Definition left_ (p : pst) : nat := length (rest (p_in p)).

(** *** Streams only shrink *)
Lemma take_until_len n d l a b e : take_until n d l = (a, b, e) ->
  (length b + length a = length l)%nat /\ len a <= Z.max 0 n.
Proof.
  revert n a b e. induction l as [|c l IH]; intros n a b e; cbn [take_until].
  - intros [= <- <- <-]. cbn. split; [lia|]. unfold len. cbn. lia.
  - destruct (n <=? 0) eqn:E1; [|destruct (c =? d)].
    + intros [= <- <- <-]. cbn [length]. split; [lia|unfold len; cbn; lia].
    + intros [= <- <- <-]. cbn [length]. split; [lia|unfold len; cbn; lia].
    + destruct (take_until (n - 1) d l) as [[a' b'] e'] eqn:E. intros [= <- <- <-].
      destruct (IH _ _ _ _ E) as [H1 H2]. cbn [length]. rewrite len_cons. split; lia.
Qed.
Lemma sgetbuf_len n d s a s' : sgetbuf n d s = (a, s') ->
  (length (rest s') + length a = length (rest s))%nat /\ len a <= Z.max 0 (n - 1).
Proof.
  unfold sgetbuf. destruct (good s).
  - destruct (take_until (n - 1) d (rest s)) as [[x y] e] eqn:E. intros [= <- <-].
    destruct (take_until_len _ _ _ _ _ _ E) as [H1 H2]. split; [|exact H2].
    destruct x, e; cbn; exact H1.
  - intros [= <- <-]. cbn. split; [lia|unfold len; cbn; lia].
Qed.
Lemma sread_len n s a s' : 0 <= n -> sread n s = (a, s') ->
  (length (rest s') + length a = length (rest s))%nat /\ len a <= n.
Proof.
  intros Hn. unfold sread. destruct (good s).
  - assert (length (zdrop n (rest s)) + length (ztake n (rest s)) = length (rest s))%nat as HL.
    { rewrite Nat.add_comm, <- app_length, ztake_zdrop. reflexivity. }
    assert (len (ztake n (rest s)) <= n) by (rewrite len_ztake; lia).
    destruct (len (ztake n (rest s)) <? n); intros [= <- <-]; cbn; auto.
  - intros [= <- <-]. cbn. split; [lia|unfold len; cbn; lia].
Qed.
Lemma sget_len s c s' : sget s = (c, s') -> (length (rest s') <= length (rest s))%nat.
Proof.
  unfold sget. destruct (good s); [destruct (rest s) eqn:E|]; intros [= <- <-]; cbn; rewrite ?E; cbn; lia.
Qed.
Lemma speek_len s c s' : speek s = (c, s') -> rest s' = rest s.
Proof. unfold speek. destruct (good s); [destruct (rest s) eqn:E|]; intros [= <- <-]; cbn; auto. Qed.

Lemma skip_ws_loop_fuel f : forall s, (length (rest s) < f)%nat ->
  exists s', skip_ws_loop f s = (Ok tt, s') /\ (length (rest s') <= length (rest s))%nat.
Proof.
  induction f as [|f IH]; intros s Hf; [lia|]. cbn [skip_ws_loop].
  destruct (speek s) as [c s1] eqn:E1. pose proof (speek_len _ _ _ E1) as HR.
  destruct (is_space c) eqn:Es.
  - destruct (sget s1) as [x s2] eqn:E2. unfold speek in E1. unfold sget in E2.
    destruct (good s) eqn:G; [destruct (rest s) as [|y r] eqn:R|].
    + injection E1 as <- <-. discriminate Es.
    + injection E1 as <- <-. rewrite G, R in E2. injection E2 as <- <-. cbn [length] in Hf.
      destruct (IH (set_rest s r)) as (s' & H1 & H2); [cbn; lia|]. exists s'. split; [exact H1|].
      cbn in *. lia.
    + injection E1 as <- <-. discriminate Es.
  - exists s1. split; [reflexivity|]. now rewrite HR.
Qed.
Lemma skip_ws_ok s : exists s', skip_ws s = (Ok tt, s') /\ (length (rest s') <= length (rest s))%nat.
Proof. apply skip_ws_loop_fuel. lia. Qed.

Lemma drop_spaces_len l : (length (drop_spaces l) <= length l)%nat.
Proof. induction l as [|c l IH]; cbn; [lia|]. destruct (is_space c); cbn; lia. Qed.
Lemma span_digits_len l a b : span_digits l = (a, b) -> (length a + length b = length l)%nat.
Proof.
  revert a b. induction l as [|c l IH]; intros a b; cbn [span_digits].
  - now intros [= <- <-].
  - destruct (is_digit c).
    + destruct (span_digits l) as [x y]. intros [= <- <-]. cbn. f_equal. now apply IH.
    + now intros [= <- <-].
Qed.
Lemma sextract_len s z s' : sextract_u64 s = (Some z, s') -> (length (rest s') < length (rest s))%nat.
Proof.
  unfold sextract_u64. destruct (good s); [|discriminate].
  pose proof (drop_spaces_len (rest s)) as HD.
  destruct (drop_spaces (rest s)) as [|c t] eqn:E; [discriminate|].
  set (body := if (c =? 45) || (c =? 43) then t else c :: t).
  assert (length body <= S (length t))%nat as HB by (unfold body; destruct ((c =? 45) || (c =? 43)); cbn; lia).
  destruct (span_digits body) as [ds r] eqn:Es. pose proof (span_digits_len _ _ _ Es) as HS.
  destruct ds as [|d ds]; [destruct r; discriminate|].
  destruct (digits_value (d :: ds) >? max64); [destruct r; discriminate|].
  intros [= _ <-]. cbn [length] in *. destruct r; cbn in *; lia.
Qed.

Lemma shape_loop_fuel f : forall s, (length (rest s) < f)%nat -> exists l, shape_loop f s = Ok l.
Proof.
  induction f as [|f IH]; intros s Hf; [lia|]. cbn [shape_loop].
  destruct (sextract_u64 s) as [[d|] s1] eqn:E; [|eauto].
  pose proof (sextract_len _ _ _ E) as H1.
  destruct (speek s1) as [c s2] eqn:E2. pose proof (speek_len _ _ _ E2) as H2.
  destruct (c =? 44).
  - destruct (sget s2) as [x s3] eqn:E3. pose proof (sget_len _ _ _ E3) as H3.
    destruct (skip_ws_ok s3) as (s4 & -> & H4). cbn [obind].
    destruct (IH s4) as [l ->]; [rewrite H2 in H3; lia|]. cbn. eauto.
  - cbn [obind]. destruct (IH s2) as [l ->]; [rewrite H2; lia|]. cbn. eauto.
Qed.
Lemma parse_shape_total t : exists l, parse_shape t = Ok l.
Proof. apply shape_loop_fuel. cbn. lia. Qed.

(** *** Steps of the parser *)
Definition step (p q : pst) : Prop :=
  (left_ q <= left_ p)%nat /\
  (map_ok (p_map p) -> map_ok (p_map q)) /\
  (len (p_buf p) = BUFFER_SIZE -> len (p_buf q) = BUFFER_SIZE).
Lemma step_refl p : step p p. Proof. unfold step. auto. Qed.
Lemma step_trans p q r : step p q -> step q r -> step p r.
Proof. unfold step. intros (A1 & A2 & A3) (B1 & B2 & B3). repeat split; auto. lia. Qed.

Definition nofuel {A} (o : outcome A) : Prop := o <> Undef OutOfFuel.
Definition safe {A} (m : M pst A) : Prop := forall p, step p (snd (m p)) /\ nofuel (fst (m p)).

Lemma safe_bind {A B} (m : M pst A) (k : A -> M pst B) :
  safe m -> (forall a, safe (k a)) -> safe (bind m k).
Proof.
  intros Hm Hk p. unfold bind. destruct (Hm p) as [H1 H2].
  destruct (m p) as [o q]. cbn [fst snd] in *. unfold nofuel in *.
  destruct o as [a|e| |u]; cbn [fst snd].
  - destruct (Hk a q) as [H3 H4]. split; [eapply step_trans; eauto|exact H4].
  - split; [exact H1|discriminate].
  - split; [exact H1|discriminate].
  - split; [exact H1|congruence].
Qed.
Lemma safe_ret {A} (a : A) : safe (ret a).
Proof. intros p. split; [apply step_refl|discriminate]. Qed.
Lemma safe_lift {A} (o : outcome A) : nofuel o -> safe (lift o).
Proof. intros H p. split; [apply step_refl|exact H]. Qed.
Lemma safe_get : safe p_get.
Proof.
  intros p. unfold p_get, with_in. destruct (sget (p_in p)) as [c s] eqn:E.
  split; [|discriminate]. unfold step, left_. cbn. apply sget_len in E. auto.
Qed.
Lemma safe_peek : safe p_peek.
Proof.
  intros p. unfold p_peek, with_in. destruct (speek (p_in p)) as [c s] eqn:E.
  split; [|discriminate]. unfold step, left_. cbn. apply speek_len in E. rewrite E. auto.
Qed.
Lemma safe_char v c : safe (p_char v c).
Proof.
  apply safe_bind; [apply safe_get|]. intros x. destruct (dbg v); [|apply safe_ret].
  destruct (x =? -1); [apply safe_lift; discriminate|]. destruct (x =? c); [apply safe_ret|].
  apply safe_lift. discriminate.
Qed.
Lemma len_blit new old : len new <= len old -> len (blit new old) = len old.
Proof. intros. unfold blit. rewrite len_app, len_zdrop. pose proof (len_nonneg _ new). lia. Qed.
Lemma safe_lit v x : len x <= BUFFER_SIZE -> safe (p_lit v x).
Proof.
  intros Hx p. unfold p_lit. destruct (sread (len x) (p_in p)) as [got s] eqn:E.
  destruct (sread_len _ _ _ _ (len_nonneg _ x) E) as [H1 H2]. split.
  - unfold step, left_. cbn. split; [lia|]. split; [auto|]. intros HB. rewrite len_blit; lia.
  - cbn. destruct (dbg v); [destruct (beq _ x)|]; discriminate.
Qed.
Lemma safe_skip : safe p_skip_ws.
Proof.
  intros p. unfold p_skip_ws. destruct (skip_ws_ok (p_in p)) as (s & -> & H).
  split; [|discriminate]. unfold step, left_. cbn. auto.
Qed.
Lemma safe_read_to v d : safe (p_read_to v d).
Proof.
  apply safe_bind; [apply safe_peek|]. intros x. destruct (x =? d); [apply safe_ret|].
  intros p. destruct (sgetbuf BUFFER_SIZE d (p_in p)) as [got s] eqn:E.
  destruct (sgetbuf_len _ _ _ _ _ E) as [H1 H2]. split.
  - unfold step, left_. cbn [p_in p_map p_buf snd]. split; [lia|]. split; [auto|]. intros HB.
    rewrite len_blit; [exact HB|]. unfold BUFFER_SIZE in *. lens. lia.
  - cbn [fst]. destruct (dbg v && negb (len got <? BUFFER_SIZE)); discriminate.
Qed.
Lemma safe_string v : safe (p_string v).
Proof.
  unfold p_string. repeat (apply safe_bind; [first [apply safe_char|apply safe_read_to]|intros ?]).
  apply safe_ret.
Qed.
Lemma safe_bool v : safe (p_bool v).
Proof.
  unfold p_bool. apply safe_bind; [apply safe_peek|]. intros c. destruct (c =? 84).
  - apply safe_bind; [apply safe_lit; discriminate|]. intros _. apply safe_ret.
  - apply safe_bind; [apply safe_peek|]. intros c2. destruct (c2 =? 70).
    + apply safe_bind; [apply safe_lit; discriminate|]. intros _. apply safe_ret.
    + apply safe_lift. discriminate.
Qed.
Lemma safe_shape v : safe (p_shape v).
Proof.
  unfold p_shape. repeat (apply safe_bind; [first [apply safe_char|apply safe_read_to]|intros ?]).
  apply safe_lift. match goal with |- nofuel (parse_shape ?t) => destruct (parse_shape_total t) as [l ->] end.
  discriminate.
Qed.
Lemma stoi_nofuel l : nofuel (stoi l).
Proof.
  unfold stoi, nofuel. destruct (match drop_spaces l with [] => _ | _ => _ end) as [neg l2].
  destruct (span_digits l2) as [ds r]. destruct ds; [discriminate|].
  match goal with |- context [if ?b then _ else _] => destruct b end; [|].
  all: try (destruct ((_ <? _) || _)); discriminate.
Qed.
Lemma safe_descr c : safe (p_descr c).
Proof.
  unfold p_descr. destruct c as [|c0 t]; [apply safe_lift; discriminate|].
  destruct (match t with [] => _ | _ => _ end).
  - apply safe_bind; [apply safe_lift, stoi_nofuel|]. intros n. apply safe_ret.
  - intros p. pose proof (map_ok_step (c0 :: t) (p_map p)) as HM.
    destruct (from_dtype (c0 :: t) (p_map p)) as [[d e] m]. cbn [fst snd] in *.
    split; [|discriminate]. unfold step, left_. cbn. auto.
Qed.
Lemma safe_entry v h : safe (p_entry v h).
Proof.
  unfold p_entry. apply safe_bind; [apply safe_skip|]. intros _.
  apply safe_bind; [apply safe_string|]. intros key.
  apply safe_bind; [apply safe_skip|]. intros _.
  apply safe_bind; [apply safe_char|]. intros _.
  apply safe_bind; [apply safe_skip|]. intros _.
  apply safe_bind; [|intros h'; apply safe_bind; [apply safe_char|]; intros _;
                     apply safe_bind; [apply safe_skip|]; intros _; apply safe_ret].
  destruct (beq key (str "descr")); [|destruct (beq key (str "fortran_order")); [|destruct (beq key (str "shape"))]].
  - apply safe_bind; [apply safe_string|]. intros code. apply safe_bind; [apply safe_descr|].
    intros [[d e] n]. apply safe_ret.
  - apply safe_bind; [apply safe_bool|]. intros b. apply safe_ret.
  - apply safe_bind; [apply safe_shape|]. intros b. apply safe_ret.
  - apply safe_lift. discriminate.
Qed.

(** *** Progress *)
Lemma bind_ok {S A B} (m : M S A) (k : A -> M S B) p b q :
  bind m k p = (Ok b, q) -> exists a p1, m p = (Ok a, p1) /\ k a p1 = (Ok b, q).
Proof. unfold bind. destruct (m p) as [[a|e| |u] p1]; try discriminate. eauto. Qed.

Lemma safe_left {A} (m : M pst A) p a q : safe m -> m p = (Ok a, q) -> (left_ q <= left_ p)%nat.
Proof. intros H E. destruct (H p) as [[H1 _] _]. now rewrite E in H1. Qed.

Lemma read_to_progress v d p t q : p_read_to v d p = (Ok t, q) -> t <> [] -> (left_ q < left_ p)%nat.
Proof.
  intros E Ht. unfold p_read_to in E. apply bind_ok in E as (c & p1 & E1 & E2).
  pose proof (safe_left _ _ _ _ safe_peek E1) as H1.
  destruct (c =? d); [injection E2 as <- _; congruence|].
  destruct (sgetbuf BUFFER_SIZE d (p_in p1)) as [got s] eqn:E3.
  destruct (sgetbuf_len _ _ _ _ _ E3) as [H2 _].
  destruct (dbg v && negb (len got <? BUFFER_SIZE)); [discriminate|].
  injection E2 as <- <-. unfold left_ in *. cbn [p_in].
  destruct got as [|x got].
  - exfalso. apply Ht. apply ztake_0. reflexivity.
  - cbn [length] in *. lia.
Qed.
Lemma string_progress v p t q : p_string v p = (Ok t, q) -> t <> [] -> (left_ q < left_ p)%nat.
Proof.
  intros E Ht. unfold p_string in E. apply bind_ok in E as (? & p1 & E1 & E2).
  apply bind_ok in E2 as (t' & p2 & E2 & E3). apply bind_ok in E3 as (? & p3 & E3 & E4).
  injection E4 as -> <-.
  pose proof (safe_left _ _ _ _ (safe_char v 39) E1). pose proof (safe_left _ _ _ _ (safe_char v 39) E3).
  pose proof (read_to_progress _ _ _ _ _ E2 Ht). lia.
Qed.
Lemma entry_progress v h p h' q : p_entry v h p = (Ok h', q) -> (left_ q < left_ p)%nat.
Proof.
  intros E. unfold p_entry in E.
  apply bind_ok in E as (? & p1 & E1 & E). apply bind_ok in E as (key & p2 & E2 & E).
  assert (left_ q <= left_ p2)%nat as HQ.
  { revert E. match goal with |- ?m p2 = _ -> _ => assert (safe m) as HS end; [|apply safe_left; exact HS].
    apply safe_bind; [apply safe_skip|]. intros _.
    apply safe_bind; [apply safe_char|]. intros _.
    apply safe_bind; [apply safe_skip|]. intros _.
    apply safe_bind; [|intros h''; apply safe_bind; [apply safe_char|]; intros _;
                       apply safe_bind; [apply safe_skip|]; intros _; apply safe_ret].
    destruct (beq key (str "descr")); [|destruct (beq key (str "fortran_order")); [|destruct (beq key (str "shape"))]].
    - apply safe_bind; [apply safe_string|]. intros code. apply safe_bind; [apply safe_descr|].
      intros [[d e] n]. apply safe_ret.
    - apply safe_bind; [apply safe_bool|]. intros b. apply safe_ret.
    - apply safe_bind; [apply safe_shape|]. intros b. apply safe_ret.
    - apply safe_lift. discriminate. }
  pose proof (safe_left _ _ _ _ safe_skip E1).
  assert (key <> []) as Hk.
  { intros ->. change (beq [] (str "descr")) with false in E. change (beq [] (str "fortran_order")) with false in E.
    change (beq [] (str "shape")) with false in E. cbv iota in E.
    apply bind_ok in E as (? & ? & _ & E). apply bind_ok in E as (? & ? & _ & E).
    apply bind_ok in E as (? & ? & _ & E). apply bind_ok in E as (? & ? & E & _). discriminate. }
  pose proof (string_progress _ _ _ _ E2 Hk). lia.
Qed.

Lemma entries_safe v fuel : forall h p, (left_ p < fuel)%nat ->
  step p (snd (p_entries v fuel h p)) /\ nofuel (fst (p_entries v fuel h p)).
Proof.
  induction fuel as [|f IH]; intros h p Hf; [lia|]. cbn [p_entries].
  unfold bind at 1 4. destruct (safe_peek p) as [H1 H2]. destruct (p_peek p) as [[c|e| |u] p1] eqn:E1;
    try (cbn [fst snd] in *; split; [exact H1|first [discriminate|congruence]]).
  - destruct (c =? 125).
    + assert (safe (p_char v 125 ;;; ret h)%monad) as HS.
      { apply safe_bind; [apply safe_char|]. intros _. apply safe_ret. }
      destruct (HS p1) as [H3 H4]. split; [eapply step_trans; eauto|exact H4].
    + cbn [fst snd] in H1. unfold bind. destruct (safe_entry v h p1) as [H3 H4].
      destruct (p_entry v h p1) as [[h'|e| |u] p2] eqn:E2; cbn [fst snd] in *;
        try (split; [eapply step_trans; eauto|unfold nofuel in *; congruence]).
      pose proof (entry_progress _ _ _ _ _ E2) as HP. destruct H1 as [HL H1'].
      destruct (IH h' p2 ltac:(lia)) as [H5 H6]. split; [|exact H6].
      eapply step_trans; [|exact H5]. eapply step_trans; [|exact H3]. split; auto.
Qed.

Lemma parse_dictionary_safe v d g :
  nofuel (fst (parse_dictionary v d g)) /\
  (map_ok (snd g) -> map_ok (snd (snd (parse_dictionary v d g)))) /\
  (len (fst g) = BUFFER_SIZE -> len (fst (snd (parse_dictionary v d g))) = BUFFER_SIZE).
Proof.
  unfold parse_dictionary. set (p := mk_pst (open_str d) (fst g) (snd g)).
  destruct ((p_char v 123 ;;; p_entries v (S (length d)) header_uninit)%monad p) as [o q] eqn:E.
  cbn [fst snd].
  assert (step p q /\ nofuel o) as [(_ & H1 & H2) H3]; [|auto].
  unfold bind in E. destruct (safe_char v 123 p) as [H1 H2].
  destruct (p_char v 123 p) as [[x|e| |u] p1]; cbn [fst snd] in *;
    try (injection E as <- <-; split; [exact H1|unfold nofuel in *; congruence]).
  assert (left_ p1 < S (length d))%nat as HL by (destruct H1 as [H1 _]; unfold left_ in *; cbn in *; lia).
  destruct (entries_safe v (S (length d)) header_uninit p1 HL) as [H3 H4]. rewrite E in H3, H4.
  split; [eapply step_trans; eauto|exact H4].
Qed.

(** *** The globals at any time: initially the buffer is zero and the table as in
    the source; they change only by parsing. *)
Inductive prior_parses : globals -> Prop :=
| prior_none : prior_parses (zrepeat 0 65536, DTYPE_MAP)
| prior_one v d g : prior_parses g -> prior_parses (snd (parse_dictionary v d g)).
Lemma prior_map_ok g : prior_parses g -> map_ok (snd g).
Proof. induction 1 as [|v d g H IH]; [apply map_ok_init|]. now apply (parse_dictionary_safe v d g). Qed.
Lemma prior_buffer g : prior_parses g -> len (fst g) = 65536.
Proof.
  induction 1 as [|v d g H IH]; [cbn [fst]; rewrite len_zrepeat; reflexivity|].
  now apply (parse_dictionary_safe v d g).
Qed.

(** Fuel beyond the need changes nothing. *)
Lemma entries_more_fuel v f k : forall h p, nofuel (fst (p_entries v f h p)) ->
  p_entries v (f + k) h p = p_entries v f h p.
Proof.
  induction f as [|f IH]; intros h p H.
  - exfalso. now apply H.
  - cbn [p_entries plus] in *. unfold bind at 1. unfold bind at 1 in H. unfold bind at 3.
    destruct (p_peek p) as [[c|e| |u] p1]; try reflexivity. destruct (c =? 125); [reflexivity|].
    unfold bind in *. destruct (p_entry v h p1) as [[h'|e| |u] p2]; try reflexivity. now apply IH.
Qed.
