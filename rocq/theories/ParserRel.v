(** The parser does not look at stale globals, and assertions only reject. *)
From Coq Require Import String ZArith List Bool Lia.
From Verif Require Import Base Stream BaseFacts Dtype Values Spec ValuesFacts Header HeaderFacts ParseFacts ParserInv Tensor Npy.
Import ListNotations.
Open Scope Z_scope.

(** *** Stale globals *)
Definition same (p1 p2 : pst) : Prop := p_in p1 = p_in p2 /\ map_ok (p_map p1) /\ map_ok (p_map p2).
Definition samek (k : bytes) (p1 p2 : pst) : Prop :=
  same p1 p2 /\ ztake (len k) (p_buf p1) = k /\ ztake (len k) (p_buf p2) = k.

Definition agree {A} (m : M pst A) (Post : A -> pst -> pst -> Prop) (p1 p2 : pst) : Prop :=
  fst (m p1) = fst (m p2) /\ same (snd (m p1)) (snd (m p2)) /\
  forall a, fst (m p1) = Ok a -> Post a (snd (m p1)) (snd (m p2)).
Definition anysame {A} (a : A) := same.

Lemma agree_bind {A B} (m : M pst A) (k : A -> M pst B) P Q p1 p2 :
  agree m P p1 p2 -> (forall a q1 q2, P a q1 q2 -> same q1 q2 -> agree (k a) Q q1 q2) -> agree (bind m k) Q p1 p2.
Proof.
  unfold agree, bind. intros (H1 & H2 & H3) Hk.
  destruct (m p1) as [o1 q1], (m p2) as [o2 q2]. cbn [fst snd] in *. subst o2.
  destruct o1 as [a|e| |u]; cbn [fst snd].
  - apply Hk; auto.
  - split; [reflexivity|]. split; [exact H2|discriminate].
  - split; [reflexivity|]. split; [exact H2|discriminate].
  - split; [reflexivity|]. split; [exact H2|discriminate].
Qed.
Lemma agree_ret {A} (a : A) p1 p2 : same p1 p2 -> agree (ret a) anysame p1 p2.
Proof. intros H. split; [reflexivity|]. split; [exact H|]. intros. exact H. Qed.
Lemma agree_lift {A} (o : outcome A) p1 p2 : same p1 p2 -> agree (lift o) anysame p1 p2.
Proof. intros H. split; [reflexivity|]. split; [exact H|]. intros. exact H. Qed.
Lemma agree_post {A} (m : M pst A) (P Q : A -> pst -> pst -> Prop) p1 p2 :
  agree m P p1 p2 -> (forall a q1 q2, P a q1 q2 -> Q a q1 q2) -> agree m Q p1 p2.
Proof. intros (H1 & H2 & H3) H. split; [exact H1|]. split; [exact H2|]. auto. Qed.

(** Steps that leave the buffer alone keep its prefix. *)
Lemma agree_with_in k f p1 p2 : samek k p1 p2 -> agree (with_in f) (fun _ : Z => samek k) p1 p2.
Proof.
  intros ((H1 & H2 & H3) & H4 & H5). unfold agree, with_in. rewrite H1.
  destruct (f (p_in p2)) as [c s]. cbn [fst snd]. split; [reflexivity|].
  assert (same (mk_pst s (p_buf p1) (p_map p1)) (mk_pst s (p_buf p2) (p_map p2))) as HS by (split; auto).
  split; [exact HS|]. intros _ _. split; auto.
Qed.
Lemma samek_nil p1 p2 : same p1 p2 -> samek [] p1 p2.
Proof. intros H. split; [exact H|]. split; apply ztake_0; reflexivity. Qed.
Lemma agree_char v c k p1 p2 : samek k p1 p2 -> agree (p_char v c) (fun _ => samek k) p1 p2.
Proof.
  intros H. unfold p_char. eapply agree_bind; [apply agree_with_in, H|]. cbv beta.
  intros x q1 q2 HK HS. destruct (dbg v); [destruct (x =? -1); [|destruct (x =? c)]|];
    (split; [reflexivity|split; [exact HS|intros; exact HK]]).
Qed.
Lemma agree_skip k p1 p2 : samek k p1 p2 -> agree p_skip_ws (fun _ => samek k) p1 p2.
Proof.
  intros ((H1 & H2 & H3) & H4 & H5). unfold agree, p_skip_ws. rewrite H1.
  destruct (skip_ws (p_in p2)) as [c s]. cbn [fst snd]. split; [reflexivity|].
  assert (same (mk_pst s (p_buf p1) (p_map p1)) (mk_pst s (p_buf p2) (p_map p2))) as HS by (split; auto).
  split; [exact HS|]. intros _ _. split; auto.
Qed.
Lemma agree_read_to v d p1 p2 : same p1 p2 -> agree (p_read_to v d) samek p1 p2.
Proof.
  intros H. unfold p_read_to. eapply agree_bind; [apply (agree_with_in []), samek_nil, H|]. cbv beta.
  intros x q1 q2 _ HS. destruct (x =? d).
  - split; [reflexivity|]. split; [exact HS|]. intros a [= <-]. now apply samek_nil.
  - destruct HS as (H1 & H2 & H3). unfold agree. rewrite H1.
    destruct (sgetbuf BUFFER_SIZE d (p_in q2)) as [got s]. cbn [fst snd].
    assert (forall b, ztake (len got) (blit (got ++ [0]) b) = got) as HB.
    { intros b. unfold blit. rewrite <- app_assoc. now apply ztake_app_exact. }
    rewrite !HB. split; [reflexivity|].
    match goal with |- same ?a ?b /\ _ => assert (same a b) as HS by (split; auto) end.
    split; [exact HS|]. intros a. destruct (dbg v && negb (len got <? BUFFER_SIZE)); [discriminate|].
    intros [= <-]. split; [exact HS|]. cbn [p_buf]. auto.
Qed.
Lemma agree_string v p1 p2 : same p1 p2 -> agree (p_string v) samek p1 p2.
Proof.
  intros H. unfold p_string. eapply agree_bind; [apply agree_char, (samek_nil _ _ H)|].
  intros _ q1 q2 _ HS. cbv beta. eapply agree_bind; [apply agree_read_to, HS|].
  intros t r1 r2 HK HS2. eapply agree_bind; [apply agree_char, HK|]. intros ? t1 t2 HK2 HS3.
  split; [reflexivity|]. split; [exact HS3|]. intros ? [= <-]. exact HK2.
Qed.

(** A literal is compared right although the buffer holds stale characters: those
    are of the key read just before. *)
Lemma ztake_prefix (k b : bytes) : ztake (len k) b = k -> exists t, b = k ++ t.
Proof. intros H. exists (zdrop (len k) b). rewrite <- H at 1. now rewrite ztake_zdrop. Qed.

Lemma lit_stale (x got b : bytes) :
  x = str "True" \/ x = str "False" ->
  ztake (len (str "fortran_order")) b = str "fortran_order" ->
  len got < len x -> beq (ztake (len x) (blit got b)) x = false.
Proof.
  intros Hx Hb HL. destruct (ztake_prefix _ _ Hb) as [t ->]. clear Hb.
  unfold blit. destruct got as [|g0 [|g1 [|g2 [|g3 [|g4 got]]]]];
    destruct Hx as [-> | ->]; try (unfold len in HL; cbn in HL; lia).
  all: apply beq_neq; intros E;
    first [ apply (f_equal (fun l => nth 3 l 0)) in E; cbn in E; discriminate
          | apply (f_equal (fun l => nth 4 l 0)) in E; cbn in E; discriminate
          | discriminate ].
Qed.
Lemma agree_lit v x p1 p2 : x = str "True" \/ x = str "False" ->
  samek (str "fortran_order") p1 p2 -> agree (p_lit v x) anysame p1 p2.
Proof.
  intros Hx ((H1 & H2 & H3) & H4 & H5). unfold agree, p_lit. rewrite H1.
  destruct (sread (len x) (p_in p2)) as [got s] eqn:E. cbn [fst snd].
  destruct (sread_len _ _ _ _ (len_nonneg _ x) E) as [_ HL].
  assert (beq (ztake (len x) (blit got (p_buf p1))) x = beq (ztake (len x) (blit got (p_buf p2))) x) as ->.
  { destruct (Z.eq_dec (len got) (len x)) as [He|Hn].
    - unfold blit. now rewrite !ztake_app_exact.
    - rewrite !lit_stale by (auto; lia). reflexivity. }
  split; [reflexivity|].
  match goal with |- same ?a ?b /\ _ => assert (same a b) as HS by (split; auto) end.
  split; [exact HS|]. intros. exact HS.
Qed.
Lemma agree_bool v p1 p2 : samek (str "fortran_order") p1 p2 -> agree (p_bool v) anysame p1 p2.
Proof.
  intros H. unfold p_bool. eapply agree_bind; [apply agree_with_in, H|]. cbv beta. intros c q1 q2 HK _.
  destruct (c =? 84).
  - eapply agree_bind; [apply agree_lit; [now left|exact HK]|]. intros. now apply agree_ret.
  - eapply agree_bind; [apply agree_with_in, HK|]. cbv beta. intros c2 r1 r2 HK2 HS2. destruct (c2 =? 70).
    + eapply agree_bind; [apply agree_lit; [now right|exact HK2]|]. intros. now apply agree_ret.
    + now apply agree_lift.
Qed.
Lemma agree_shape v p1 p2 : same p1 p2 -> agree (p_shape v) anysame p1 p2.
Proof.
  intros H. unfold p_shape. eapply agree_bind; [apply agree_char, (samek_nil _ _ H)|].
  intros _ q1 q2 _ HS. cbv beta. eapply agree_bind; [apply agree_read_to, HS|].
  intros t r1 r2 HK HS2. eapply agree_bind; [apply agree_char, HK|]. intros ? t1 t2 HK2 HS3.
  now apply agree_lift.
Qed.
Lemma agree_descr c p1 p2 : same p1 p2 -> agree (p_descr c) anysame p1 p2.
Proof.
  intros H. unfold p_descr. destruct c as [|c0 t]; [now apply agree_lift|].
  destruct (match t with [] => _ | _ => _ end).
  - eapply agree_bind; [now apply agree_lift|]. intros. now apply agree_ret.
  - destruct H as (H1 & H2 & H3). unfold agree.
    pose proof (map_ok_step (c0 :: t) _ H2) as M1. pose proof (map_ok_step (c0 :: t) _ H3) as M2.
    pose proof (H2 (c0 :: t)) as E1. pose proof (H3 (c0 :: t)) as E2.
    destruct (from_dtype (c0 :: t) (p_map p1)) as [[d1 e1] m1], (from_dtype (c0 :: t) (p_map p2)) as [[d2 e2] m2].
    cbn [fst snd] in *. rewrite <- E2 in E1. injection E1 as -> ->.
    split; [reflexivity|]. match goal with |- same ?a ?b /\ _ => assert (same a b) as HS by (split; auto) end.
    split; [exact HS|]. intros. exact HS.
Qed.
Lemma agree_entry v h p1 p2 : same p1 p2 -> agree (p_entry v h) anysame p1 p2.
Proof.
  intros H. unfold p_entry. eapply agree_bind; [apply agree_skip, (samek_nil _ _ H)|]. cbv beta. intros _ q1 q2 _ HS.
  eapply agree_bind; [apply agree_string, HS|]. intros key a1 a2 HK _.
  eapply agree_bind; [apply agree_skip, HK|]. cbv beta. intros _ b1 b2 HK2 _.
  eapply agree_bind; [apply agree_char, HK2|]. cbv beta. intros _ c1 c2 HK3 _.
  eapply agree_bind; [apply agree_skip, HK3|]. cbv beta. intros _ d1 d2 HK4 HS4.
  eapply (agree_bind _ _ anysame).
  - destruct (beq key (str "descr")) eqn:E1; [|destruct (beq key (str "fortran_order")) eqn:E2;
      [|destruct (beq key (str "shape")) eqn:E3]].
    + eapply agree_bind; [apply agree_string, HS4|]. intros code e1 e2 _ HS5.
      eapply agree_bind; [apply agree_descr, HS5|]. intros [[d e] n] f1 f2 _ HS6. now apply agree_ret.
    + apply beq_eq in E2. subst key. eapply agree_bind; [apply agree_bool, HK4|].
      intros b f1 f2 _ HS6. now apply agree_ret.
    + eapply agree_bind; [apply agree_shape, HS4|]. intros b f1 f2 _ HS6. now apply agree_ret.
    + now apply agree_lift.
  - intros h' e1 e2 _ HS5. eapply agree_bind; [apply agree_char, (samek_nil _ _ HS5)|]. cbv beta.
    intros _ f1 f2 HK6 _. eapply agree_bind; [apply agree_skip, HK6|]. cbv beta. intros _ g1 g2 _ HS7.
    now apply agree_ret.
Qed.
Lemma agree_entries v fuel : forall h p1 p2, same p1 p2 -> agree (p_entries v fuel h) anysame p1 p2.
Proof.
  induction fuel as [|f IH]; intros h p1 p2 H; [now apply agree_lift|]. cbn [p_entries].
  eapply agree_bind; [apply (agree_with_in []), samek_nil, H|]. cbv beta. intros c q1 q2 HK HS.
  destruct (c =? 125).
  - eapply agree_bind; [apply agree_char, HK|]. cbv beta. intros. now apply agree_ret.
  - eapply agree_bind; [apply agree_entry, HS|]. intros h' r1 r2 _ HS2. now apply IH.
Qed.
Lemma parse_dictionary_indep v d g1 g2 : map_ok (snd g1) -> map_ok (snd g2) ->
  fst (parse_dictionary v d g1) = fst (parse_dictionary v d g2).
Proof.
  intros H1 H2. unfold parse_dictionary.
  assert (agree (p_char v 123 ;;; p_entries v (S (length d)) header_uninit)%monad anysame
            (mk_pst (open_str d) (fst g1) (snd g1)) (mk_pst (open_str d) (fst g2) (snd g2))) as (E & _ & _).
  { eapply agree_bind; [apply (agree_char v 123 []), samek_nil; repeat split; auto|].
    cbv beta. intros _ q1 q2 _ HS. now apply agree_entries. }
  revert E. generalize (p_char v 123 ;;; p_entries v (S (length d)) header_uninit)%monad. intros m E.
  destruct (m (mk_pst (open_str d) (fst g1) (snd g1))), (m (mk_pst (open_str d) (fst g2) (snd g2))). exact E.
Qed.

(** *** Assertions only reject *)
Definition release (v : env) : env := mk_env (host_big v) false (mem v).
Definition clean {A} (o : outcome A) : Prop := match o with Ok _ | Throw _ => True | _ => False end.
Definition refines {A} (m m' : M pst A) : Prop := forall p, clean (fst (m p)) -> m' p = m p.
Lemma refines_refl {A} (m : M pst A) : refines m m. Proof. intros p _. reflexivity. Qed.
Lemma refines_bind {A B} (m m' : M pst A) (k k' : A -> M pst B) :
  refines m m' -> (forall a, refines (k a) (k' a)) -> refines (bind m k) (bind m' k').
Proof.
  intros Hm Hk p. unfold bind. specialize (Hm p). destruct (m p) as [[a|e| |u] q]; cbn [fst clean] in *; intros HC.
  - rewrite Hm by exact I. now apply Hk.
  - now rewrite Hm.
  - contradiction.
  - contradiction.
Qed.
Lemma refines_char v c : refines (p_char v c) (p_char (release v) c).
Proof.
  apply refines_bind; [apply refines_refl|]. intros x p. cbn [dbg release].
  destruct (dbg v); [|reflexivity]. destruct (x =? -1); [contradiction|]. destruct (x =? c); [reflexivity|contradiction].
Qed.
Lemma refines_lit v x : refines (p_lit v x) (p_lit (release v) x).
Proof.
  intros p. unfold p_lit. destruct (sread (len x) (p_in p)) as [got s]. cbn [fst dbg release].
  destruct (dbg v); [|reflexivity]. destruct (beq _ x); [reflexivity|contradiction].
Qed.
Lemma refines_read_to v d : refines (p_read_to v d) (p_read_to (release v) d).
Proof.
  apply refines_bind; [apply refines_refl|]. intros x. destruct (x =? d); [apply refines_refl|].
  intros p. destruct (sgetbuf BUFFER_SIZE d (p_in p)) as [got s]. cbn [fst dbg release andb].
  destruct (dbg v && negb (len got <? BUFFER_SIZE)); [contradiction|reflexivity].
Qed.
Lemma refines_string v : refines (p_string v) (p_string (release v)).
Proof.
  unfold p_string. repeat (apply refines_bind; [first [apply refines_char|apply refines_read_to]|intros ?]).
  apply refines_refl.
Qed.
Lemma refines_shape v : refines (p_shape v) (p_shape (release v)).
Proof.
  unfold p_shape. repeat (apply refines_bind; [first [apply refines_char|apply refines_read_to]|intros ?]).
  apply refines_refl.
Qed.
Lemma refines_bool v : refines (p_bool v) (p_bool (release v)).
Proof.
  unfold p_bool. apply refines_bind; [apply refines_refl|]. intros c. destruct (c =? 84).
  - apply refines_bind; [apply refines_lit|]. intros. apply refines_refl.
  - apply refines_bind; [apply refines_refl|]. intros c2. destruct (c2 =? 70); [|apply refines_refl].
    apply refines_bind; [apply refines_lit|]. intros. apply refines_refl.
Qed.
Lemma refines_entry v h : refines (p_entry v h) (p_entry (release v) h).
Proof.
  unfold p_entry. apply refines_bind; [apply refines_refl|]. intros _.
  apply refines_bind; [apply refines_string|]. intros key.
  apply refines_bind; [apply refines_refl|]. intros _.
  apply refines_bind; [apply refines_char|]. intros _.
  apply refines_bind; [apply refines_refl|]. intros _.
  apply refines_bind.
  - destruct (beq key (str "descr")); [|destruct (beq key (str "fortran_order")); [|destruct (beq key (str "shape"))]].
    + apply refines_bind; [apply refines_string|]. intros code. apply refines_refl.
    + apply refines_bind; [apply refines_bool|]. intros. apply refines_refl.
    + apply refines_bind; [apply refines_shape|]. intros. apply refines_refl.
    + apply refines_refl.
  - intros h'. apply refines_bind; [apply refines_char|]. intros. apply refines_refl.
Qed.
Lemma refines_entries v fuel : forall h, refines (p_entries v fuel h) (p_entries (release v) fuel h).
Proof.
  induction fuel as [|f IH]; intros h; [apply refines_refl|]. cbn [p_entries].
  apply refines_bind; [apply refines_refl|]. intros c. destruct (c =? 125).
  - apply refines_bind; [apply refines_char|]. intros. apply refines_refl.
  - apply refines_bind; [apply refines_entry|]. intros. apply IH.
Qed.
Lemma parse_dictionary_release v d g : clean (fst (parse_dictionary v d g)) ->
  parse_dictionary (release v) d g = parse_dictionary v d g.
Proof.
  unfold parse_dictionary.
  assert (refines (p_char v 123 ;;; p_entries v (S (length d)) header_uninit)%monad
                  (p_char (release v) 123 ;;; p_entries (release v) (S (length d)) header_uninit)%monad) as HR.
  { apply refines_bind; [apply refines_char|]. intros _. apply refines_entries. }
  specialize (HR (mk_pst (open_str d) (fst g) (snd g))). revert HR.
  generalize (p_char v 123 ;;; p_entries v (S (length d)) header_uninit)%monad.
  generalize (p_char (release v) 123 ;;; p_entries (release v) (S (length d)) header_uninit)%monad.
  intros m' m HR. destruct (m (mk_pst (open_str d) (fst g) (snd g))) as [o q]. cbn [fst] in *. intros HC.
  now rewrite HR.
Qed.
Lemma check_magic_cases c l : forall i,
  check_magic c i l = Ok tt \/ check_magic c i l = AssertFail \/ exists u, check_magic c i l = Undef u.
Proof.
  induction l as [|x l IH]; intros i; cbn [check_magic]; [auto|].
  unfold cell. destruct (nth i c None) as [z|]; cbn [obind]; [|eauto].
  destruct (z =? x); auto.
Qed.
Lemma read_npy_header_release v s g : clean (fst (fst (read_npy_header v s g))) ->
  read_npy_header (release v) s g = read_npy_header v s g.
Proof.
  unfold read_npy_header. destruct (sread STATIC_HEADER_LENGTH s) as [got s1].
  cbn [dbg release mem]. cbv zeta.
  match goal with |- context [obind (if dbg v then ?c else _) ?k] => set (chk := c); set (kk := k) end.
  destruct (dbg v).
  - assert (chk = Ok tt \/ chk = AssertFail \/ exists u, chk = Undef u) as HC.
    { apply check_magic_cases. }
    destruct HC as [-> | [-> | [u ->]]]; cbn [obind fst clean]; [|intros []|intros []].
    destruct (kk tt) as [[n s2]|e| |u]; cbn [fst clean]; [|reflexivity|intros []|intros []].
    destruct (n >? mem v); [reflexivity|]. destruct (sread n s2) as [d s3].
    pose proof (parse_dictionary_release v (d ++ zrepeat 0 (n - len d)) g) as HR.
    destruct (parse_dictionary v (d ++ zrepeat 0 (n - len d)) g) as [o g']. cbn [fst] in *. intros HC.
    now rewrite HR.
  - cbn [obind]. destruct (kk tt) as [[n s2]|e| |u]; cbn [fst clean]; [|reflexivity|intros []|intros []].
    destruct (n >? mem v); [reflexivity|]. destruct (sread n s2) as [d s3].
    pose proof (parse_dictionary_release v (d ++ zrepeat 0 (n - len d)) g) as HR.
    destruct (parse_dictionary v (d ++ zrepeat 0 (n - len d)) g) as [o g']. cbn [fst] in *. intros HC.
    now rewrite HR.
Qed.

(** Loading values does not involve assertions. *)
Lemma read_wstr_release v e j : forall s, read_wstr (release v) e j s = read_wstr v e j s.
Proof.
  induction j as [|j IH]; intros s; [reflexivity|]. cbn [read_wstr]. destruct (getc_n 4 s) as [b s1].
  rewrite IH. reflexivity.
Qed.
Lemma read_wstrs_release v e m n : forall s, read_wstrs (release v) e m n s = read_wstrs v e m n s.
Proof.
  induction n as [|n IH]; intros s; [reflexivity|]. cbn [read_wstrs]. rewrite read_wstr_release.
  destruct (read_wstr v e m s) as [c s1]. now rewrite IH.
Qed.
Lemma read_values_release v d e m n s : read_values (release v) d e m n s = read_values v d e m n s.
Proof. unfold read_values. destruct (is_string d); [apply read_wstrs_release|]. reflexivity. Qed.
Lemma tensor_load_release v d h s : tensor_load (release v) d h s = tensor_load v d h s.
Proof.
  unfold tensor_load. change (make_tensor (release v)) with (make_tensor v).
  destruct (let* f := _ in _) as [t|e| |u]; try reflexivity. cbv zeta.
  destruct (let* e := _ in _) as [[e m]|x| |u]; try reflexivity.
  now rewrite read_values_release.
Qed.
