(** The functions of StrictFacts against the grammar of StrictSpec, and against a release build. *)
From Coq Require Import String ZArith List Bool Lia.
From Verif Require Import Base Stream BaseFacts Dtype Values Spec ValuesFacts PropValues Header HeaderFacts ParserInv ParserRel LenientSpec LenientFacts LenientText
  StrictSpec StrictFacts.
Import ListNotations.
Open Scope Z_scope.

Lemma s_char_ok c o o' : 0 <= c -> s_char c o = Ok o' <-> exists r, o = Some (c :: r) /\ o' = Some r.
Proof.
  intros Hc. split.
  - destruct o as [[|x r]|]; try discriminate. cbn [s_char]. destruct (x =? -1); [discriminate|]. destruct (x =? c) eqn:E; [|discriminate].
    intros [= <-]. assert (x = c) as -> by lia. eauto.
  - intros (r & -> & ->). cbn [s_char]. assert (c =? -1 = false) as -> by lia. now rewrite Z.eqb_refl.
Qed.
Definition strict_token (close : Z) (t : bytes) : Prop := ~ In close t /\ len t <= 65535.
Lemma s_string_ok o t o' : s_string o = Ok (t, o') <-> exists r, o = Some (39 :: t ++ 39 :: r) /\ o' = Some r /\ strict_token 39 t.
Proof.
  unfold s_string. split.
  - destruct (s_char 39 o) as [o1|?| |?] eqn:E1; cbn [obind]; try discriminate. apply s_char_ok in E1; [|lia]. destruct E1 as (r1 & -> & ->).
    destruct (f_tok 39 (Some r1)) as [t' o2] eqn:ET. destruct (s_char 39 o2) as [o3|?| |?] eqn:E3; cbn [obind]; try discriminate.
    intros [= <- <-]. apply s_char_ok in E3; [|lia]. destruct E3 as (r & -> & ->). apply tok_some in ET. destruct ET as (q & r' & [= <- <-] & [= ->] & HT).
    exists r. split; [reflexivity|]. split; [reflexivity|]. destruct HT as [H1 [[_ H2]|H2]]; split; auto; lia.
  - intros (r & -> & -> & H1 & H2). cbn [s_char obind]. change (39 =? -1) with false. rewrite Z.eqb_refl. cbv iota. cbn [obind].
    assert (f_tok 39 (Some (t ++ 39 :: r)) = (t, Some (39 :: r))) as -> by (apply tok_some; exists 39, r; split; [reflexivity|]; split; [reflexivity|]; split; auto).
    reflexivity.
Qed.
Lemma s_lit_ok x o o' : s_lit x o = Ok o' <-> exists r, o = Some (x ++ r) /\ o' = Some r.
Proof.
  unfold s_lit. split.
  - destruct o as [r|]; [|discriminate]. destruct (len r <? len x) eqn:EL; [discriminate|]. destruct (beq (ztake (len x) r) x) eqn:EB; [|discriminate].
    intros [= <-]. apply beq_eq in EB. exists (zdrop (len x) r). split; [|reflexivity]. f_equal. rewrite <- EB at 1. now rewrite ztake_zdrop.
  - intros (r & -> & ->). rewrite len_app. pose proof (len_nonneg _ r). assert (len x + len r <? len x = false) as -> by lia.
    rewrite ztake_app_exact, zdrop_app_exact by reflexivity. now rewrite (proj2 (beq_eq x x) eq_refl).
Qed.
Lemma s_bool_ok t b o' : s_bool (Some t) = Ok (b, o') <-> exists val r, t = val ++ r /\ o' = Some r /\ strict_value val (FOrder b).
Proof.
  split.
  - destruct t as [|c t]; [discriminate|]. cbn [s_bool]. destruct (c =? 84).
    + match goal with |- context [s_lit ?x ?o] => destruct (s_lit x o) as [o1|?| |?] eqn:E end; cbn [obind]; try discriminate.
      intros [= <- <-]. apply s_lit_ok in E. destruct E as (r & [= -> ->] & ->). eexists _, r. split; [|split; [reflexivity|apply Strict_true]]. reflexivity.
    + destruct (c =? 70); [|discriminate]. match goal with |- context [s_lit ?x ?o] => destruct (s_lit x o) as [o1|?| |?] eqn:E end; cbn [obind]; try discriminate.
      intros [= <- <-]. apply s_lit_ok in E. destruct E as (r & [= -> ->] & ->). eexists _, r. split; [|split; [reflexivity|apply Strict_false]]. reflexivity.
  - intros (val & r & -> & -> & HV). assert (forall x, s_lit x (Some (x ++ r)) = Ok (Some r)) as HL by (intros x; apply s_lit_ok; eauto).
    inversion HV; subst.
    + change (s_bool (Some (str "True" ++ r))) with (let* o' := s_lit (str "True") (Some (str "True" ++ r)) in Ok (true, o')). now rewrite HL.
    + change (s_bool (Some (str "False" ++ r))) with (let* o' := s_lit (str "False") (Some (str "False" ++ r)) in Ok (false, o')). now rewrite HL.
Qed.
Lemma s_shape_ok o l o' : s_shape o = Ok (l, o') <-> exists val r, o = Some (val ++ r) /\ o' = Some r /\ strict_value val (FShape l).
Proof.
  unfold s_shape. split.
  - destruct (s_char 40 o) as [o1|?| |?] eqn:E1; cbn [obind]; try discriminate. apply s_char_ok in E1; [|lia]. destruct E1 as (r1 & -> & ->).
    destruct (f_tok 41 (Some r1)) as [t' o2] eqn:ET. destruct (s_char 41 o2) as [o3|?| |?] eqn:E3; cbn [obind]; try discriminate.
    destruct (parse_shape t') as [l'|?| |?] eqn:EP; cbn [obind]; try discriminate.
    intros [= <- <-]. apply s_char_ok in E3; [|lia]. destruct E3 as (r & -> & ->). apply tok_some in ET. destruct ET as (q & r' & [= <- <-] & [= ->] & HT).
    exists (40 :: t' ++ [41]), r. split; [cbn [app]; now rewrite <- app_assoc|]. split; [reflexivity|]. apply parse_shape_dims in EP.
    destruct HT as [H1 [[_ H2]|H2]]; constructor; auto; lia.
  - intros (val & r & -> & -> & HV). inversion HV; subst. cbn [app s_char obind]. change (40 =? -1) with false. rewrite Z.eqb_refl. cbv iota. cbn [obind]. rewrite <- app_assoc. cbn [app].
    assert (f_tok 41 (Some (t ++ 41 :: r)) = (t, Some (41 :: r))) as -> by (apply tok_some; exists 41, r; split; [reflexivity|]; split; [reflexivity|]; split; auto).
    cbn [s_char obind]. change (41 =? -1) with false. rewrite Z.eqb_refl. cbv iota. cbn [obind].
    match goal with H : dims_read _ _ |- _ => apply parse_shape_dims in H; rewrite H end. reflexivity.
Qed.
Lemma s_value_ok key t h h' f o' :
  s_value key (Some t) h = Ok (h', f, o') <-> key = key_text f /\ made [f] h h' /\ exists val r, t = val ++ r /\ o' = Some r /\ strict_value val f.
Proof.
  unfold s_value. split.
  - destruct (beq key (str "descr")) eqn:E1.
    { apply beq_eq in E1. subst key. destruct (s_string (Some t)) as [[c o3]|?| |?] eqn:ES; cbn [obind]; try discriminate.
      destruct (f_code c) as [[[d e] n]|?| |?] eqn:EC; cbn [obind]; try discriminate.
      intros [= <- <- <-]. apply code_same in EC. split; [reflexivity|]. split; [econstructor; [exact EC|constructor]|].
      apply s_string_ok in ES. destruct ES as (r & [= ->] & -> & H1 & H2). exists (39 :: c ++ [39]), r. split; [cbn [app]; now rewrite <- app_assoc|].
      split; [reflexivity|]. constructor; [intros ->; exact (code_not_empty _ _ _ EC)|exact H1|exact H2]. }
    destruct (beq key (str "fortran_order")) eqn:E2.
    { apply beq_eq in E2. subst key. destruct (s_bool (Some t)) as [[b o3]|?| |?] eqn:EB; cbn [obind fst snd]; try discriminate.
      intros [= <- <- <-]. split; [reflexivity|]. split; [constructor; constructor|]. now apply s_bool_ok. }
    destruct (beq key (str "shape")) eqn:E3; [|discriminate]. apply beq_eq in E3. subst key.
    destruct (s_shape (Some t)) as [[l o3]|?| |?] eqn:EB; cbn [obind fst snd]; try discriminate.
    intros [= <- <- <-]. split; [reflexivity|]. split; [constructor; constructor|]. apply s_shape_ok in EB.
    destruct EB as (val & r & [= ->] & -> & HV). eauto.
  - intros (-> & HM & val & r & -> & -> & HV). destruct f as [c|b|l]; cbn [key_text].
    + change (beq (str "descr") (str "descr")) with true. cbv iota.
      inversion HM; subst. match goal with H : code_read _ _ _ _ |- _ => rename H into HCR end.
      inversion HV; subst. match goal with |- context [s_string ?o] => assert (s_string o = Ok (c, Some r)) as -> end.
      { apply s_string_ok. exists r. split; [cbn [app]; now rewrite <- app_assoc|]. split; [reflexivity|]. now split. }
      cbn [obind]. apply code_same in HCR. rewrite HCR. cbn [obind].
      match goal with H : made [] _ _ |- _ => inversion H; subst end. reflexivity.
    + change (beq (str "fortran_order") (str "descr")) with false. change (beq (str "fortran_order") (str "fortran_order")) with true. cbv iota.
      match goal with |- context [s_bool ?o] => assert (s_bool o = Ok (b, Some r)) as -> by (apply s_bool_ok; eauto) end. cbn [obind fst snd].
      inversion HM; subst. match goal with H : made [] _ _ |- _ => inversion H; subst end. reflexivity.
    + change (beq (str "shape") (str "descr")) with false. change (beq (str "shape") (str "fortran_order")) with false. change (beq (str "shape") (str "shape")) with true. cbv iota.
      match goal with |- context [s_shape ?o] => assert (s_shape o = Ok (l, Some r)) as -> by (apply s_shape_ok; eauto) end. cbn [obind fst snd].
      inversion HM; subst. match goal with H : made [] _ _ |- _ => inversion H; subst end. reflexivity.
Qed.
Lemma s_value_none key h h' f o' : s_value key None h <> Ok (h', f, o').
Proof.
  unfold s_value. destruct (beq key (str "descr")); [discriminate|]. destruct (beq key (str "fortran_order")); [discriminate|].
  destruct (beq key (str "shape")); discriminate.
Qed.
Lemma strict_value_dark val f r : strict_value val f -> dark (val ++ r).
Proof. intros H. inversion H; subst; [|change (str "True") with [84; 114; 117; 101]|change (str "False") with [70; 97; 108; 115; 101]|];
    cbn [app]; eexists _, _; (split; [reflexivity|]); unfold blank_char; lia. Qed.
Lemma not_blank c : c = 39 \/ c = 58 -> ~ blank_char c. Proof. unfold blank_char. lia. Qed.
Lemma s_entry_ok t h h' f r : s_entry (Some t) h = Ok (h', f, Some r) <-> strict_entry t f r /\ made [f] h h'.
Proof.
  unfold s_entry. split.
  - destruct (s_string (f_ws (Some t))) as [[key o1]|?| |?] eqn:EK; cbn [obind]; try discriminate.
    apply s_string_ok in EK. destruct EK as (r1 & EK & -> & HT). apply ws_some in EK. destruct EK as (w1 & [= ->] & B1 & _).
    destruct (s_char 58 (f_ws (Some r1))) as [o2|?| |?] eqn:EC; cbn [obind]; try discriminate.
    apply s_char_ok in EC; [|lia]. destruct EC as (r2 & EC & ->). apply ws_some in EC. destruct EC as (w2 & [= ->] & B2 & _).
    destruct (f_ws (Some r2)) as [t2|] eqn:E2.
    2:{ destruct (s_value key None h) as [[[h1 f1] o3]|?| |?] eqn:EV; cbn [obind]; try discriminate. exfalso. exact (s_value_none _ _ _ _ _ EV). }
    apply ws_some in E2. destruct E2 as (w3 & [= ->] & B3 & D3).
    destruct (s_value key (Some t2) h) as [[[h1 f1] o3]|?| |?] eqn:EV; cbn [obind]; try discriminate.
    apply s_value_ok in EV. destruct EV as (-> & HM & val & r3 & -> & -> & HV).
    destruct (s_char 44 (Some r3)) as [o4|?| |?] eqn:EM; cbn [obind]; try discriminate.
    apply s_char_ok in EM; [|lia]. destruct EM as (r4 & [= ->] & ->). intros [= -> -> HE]. assert (f_ws (Some r4) = Some r) as HE' by exact HE. apply ws_some in HE'. destruct HE' as (w4 & HW & B4 & D4).
    injection HW as ->. split; [now constructor|exact HM].
  - intros [HE HM]. inversion HE; subst.
    match goal with |- context [s_string ?o] => assert (s_string o = Ok (key_text f, Some (w2 ++ 58 :: w3 ++ val ++ 44 :: w4 ++ r))) as -> end.
    { apply s_string_ok. eexists. split; [|split; [reflexivity|]].
      - apply ws_some. exists w1. split; [reflexivity|]. split; [assumption|]. eexists _, _. split; [reflexivity|]. apply not_blank. auto.
      - split; [destruct f; cbn; intuition discriminate|]. destruct f; vm_compute; discriminate. }
    cbn [obind].
    match goal with |- context [s_char 58 ?o] => assert (s_char 58 o = Ok (Some (w3 ++ val ++ 44 :: w4 ++ r))) as -> end.
    { apply s_char_ok; [lia|]. eexists. split; [|reflexivity]. apply ws_some. exists w2. split; [reflexivity|]. split; [assumption|].
      eexists _, _. split; [reflexivity|]. apply not_blank. auto. }
    cbn [obind].
    assert (f_ws (Some (w3 ++ val ++ 44 :: w4 ++ r)) = Some (val ++ 44 :: w4 ++ r)) as ->.
    { apply ws_some. exists w3. split; [reflexivity|]. split; [assumption|]. eapply strict_value_dark; eassumption. }
    assert (s_value (key_text f) (Some (val ++ 44 :: w4 ++ r)) h = Ok (h', f, Some (44 :: w4 ++ r))) as ->.
    { apply s_value_ok. split; [reflexivity|]. split; [exact HM|]. eexists val, _. eauto. }
    cbn [obind s_char]. change (44 =? -1) with false. rewrite Z.eqb_refl. cbv iota. cbn [obind]. do 2 f_equal. apply ws_some. exists w4. auto.
Qed.
Lemma s_entry_nowhere h : s_entry None h = Undef UninitRead. Proof. reflexivity. Qed.
Lemma strict_shorter t f r : strict_entry t f r -> (length r < length t)%nat.
Proof. intros H. inversion H; subst. repeat (rewrite app_length; cbn [length]). lia. Qed.
Lemma s_entries_step n (t : bytes) h : ~ closed t ->
  s_entries (S n) (Some t) h = let* x := s_entry (Some t) h in let '(h', _, o') := x in s_entries n o' h'.
Proof.
  intros HC. cbn [s_entries]. destruct t as [|c r]; [reflexivity|].
  destruct (Z.eq_dec c 125) as [->|HN]; [exfalso; apply HC; now exists r|].
  destruct c as [|c|c]; try reflexivity. do 7 (destruct c as [c|c|]; try reflexivity). contradiction.
Qed.
Lemma s_entries_nowhere n h h' : s_entries n None h <> Ok h'.
Proof. destruct n; discriminate. Qed.
Lemma s_entries_ok n : forall (t : bytes) h h', (length t < n)%nat ->
  s_entries n (Some t) h = Ok h' <-> exists fs r, strict_entries t fs r /\ closed r /\ made fs h h'.
Proof.
  induction n as [|n IH]; intros t h h' HL; [lia|]. destruct (closed_or t) as [HC|HC].
  - split.
    + destruct HC as [r ->]. cbn [s_entries]. intros [= <-]. exists [], (125 :: r). split; [constructor|]. split; [now exists r|constructor].
    + intros (fs & r & HE & _ & HM). inversion HE; subst; [|contradiction]. inversion HM; subst. destruct HC as [r' ->]. reflexivity.
  - rewrite s_entries_step by exact HC. split.
    + destruct (s_entry (Some t) h) as [[[h1 f] o']|?| |?] eqn:EE; cbn [obind]; try discriminate.
      destruct o' as [t'|]; [|intros HF; exfalso; exact (s_entries_nowhere _ _ _ HF)]. apply s_entry_ok in EE. destruct EE as [HE HM]. pose proof (strict_shorter _ _ _ HE).
      intros HF. apply IH in HF; [|lia]. destruct HF as (fs & r & HE2 & HC2 & HM2). exists (f :: fs), r.
      split; [econstructor; eassumption|]. split; [exact HC2|]. apply made_cons. eauto.
    + intros (fs & r & HE & HC2 & HM). inversion HE; subst; [contradiction|]. apply made_cons in HM. destruct HM as (h1 & HM1 & HM2).
      match goal with H : strict_entry _ _ _ |- _ => pose proof (strict_shorter _ _ _ H); rename H into HE1 end.
      rewrite (proj2 (s_entry_ok _ _ _ _ _) (conj HE1 HM1)). cbn [obind]. apply IH; [lia|]. eauto.
Qed.

(** ** Against a release build, on text of bytes *)
Definition plain (o : option bytes) : Prop := match o with Some t => Forall (fun x => 0 <= x) t | None => True end.
(** The debug build does the same, or an assertion fails, or it reads past the end, in which
    case the release build has lost its stream. *)
Definition beside {A} (s f : outcome (A * option bytes)) : Prop :=
  s = f \/ s = AssertFail \/ s = Undef UninitRead /\ forall x o, f = Ok (x, o) -> o = None.
Lemma beside_char c o : plain o -> s_char c o = Ok (f_char o) /\ plain (f_char o) \/ s_char c o = AssertFail \/ s_char c o = Undef UninitRead /\ f_char o = None.
Proof.
  intros HP. destruct o as [[|x r]|]; cbn [s_char f_char]; auto. cbn [plain] in HP. inversion HP; subst.
  assert (x =? -1 = false) as -> by lia. destruct (x =? c); auto.
Qed.
Lemma plain_suffix a b : plain (Some (a ++ b)) -> plain (Some b).
Proof. cbn [plain]. intros H. apply Forall_app in H. tauto. Qed.
Lemma plain_ws o : plain o -> plain (f_ws o).
Proof.
  intros H. destruct (f_ws o) as [r|] eqn:E; [|exact I]. apply ws_some in E. destruct E as (w & -> & _). eapply plain_suffix; exact H.
Qed.
Lemma plain_tok d o t o' : plain o -> f_tok d o = (t, o') -> plain o'.
Proof.
  intros H E. destruct o' as [r|]; [|exact I]. apply tok_some in E. destruct E as (q & r' & -> & -> & _). eapply plain_suffix; exact H.
Qed.
Lemma beside_string o : plain o -> (s_string o = Ok (f_string o) /\ plain (snd (f_string o))) \/ s_string o = AssertFail \/ s_string o = Undef UninitRead /\ snd (f_string o) = None.
Proof.
  intros HP. unfold s_string, f_string. destruct (beside_char 39 o HP) as [[-> HP1]|[->|[-> ->]]]; cbn [obind].
  - destruct (f_tok 39 (f_char o)) as [t o2] eqn:ET. pose proof (plain_tok _ _ _ _ HP1 ET) as HP2.
    destruct (beside_char 39 o2 HP2) as [[-> HP3]|[->|[-> ->]]]; cbn [obind snd]; auto.
  - auto.
  - right. right. split; reflexivity.
Qed.
Lemma f_bool_none b o : f_bool None = Ok (b, o) -> o = None. Proof. discriminate. Qed.
Lemma f_shape_none l o : f_shape None = Ok (l, o) -> o = None.
Proof. unfold f_shape. cbn. intros [= _ <-]. reflexivity. Qed.
Lemma beside_bool o : plain o -> beside (s_bool o) (f_bool o) /\ forall x o', f_bool o = Ok (x, o') -> plain o'.
Proof.
  intros HP. split.
  - destruct o as [[|c r]|]; cbn [s_bool f_bool]; [now left| |now left].
    assert (forall (x : bytes) n (b : bool), n = len x -> beside (let* o' := s_lit x (Some (c :: r)) in Ok (b, o')) (Ok (b, f_skip n (Some (c :: r))))) as HL.
    { intros x n b ->. cbn [s_lit f_skip]. destruct (len (c :: r) <? len x); [right; now left|].
      destruct (beq (ztake (len x) (c :: r)) x); [now left|right; now left]. }
    destruct (c =? 84); [now apply HL|]. destruct (c =? 70); [now apply HL|now left].
  - intros x [r|] E; [|exact I]. destruct o as [t|]; [|discriminate]. apply bool_some in E. destruct E as (val & -> & _). eapply plain_suffix; exact HP.
Qed.
Lemma beside_shape o : plain o -> beside (s_shape o) (f_shape o) /\ forall x o', f_shape o = Ok (x, o') -> plain o'.
Proof.
  intros HP. unfold s_shape, f_shape. destruct (f_tok 41 (f_char o)) as [t o2] eqn:ET.
  destruct (parse_shape_total t) as [l HPS]. rewrite HPS. cbn [obind].
  assert (plain (f_char o)) as HP1.
  { destruct o as [[|x r]|]; cbn [f_char plain]; auto. cbn [plain] in HP. now inversion HP. }
  pose proof (plain_tok _ _ _ _ HP1 ET) as HP2.
  assert (plain (f_char o2)) as HP3.
  { destruct o2 as [[|x r]|]; cbn [f_char plain]; auto. cbn [plain] in HP2. now inversion HP2. }
  split; [|intros x o' [= <- <-]; exact HP3].
  destruct (beside_char 40 o HP) as [[-> _]|[->|[-> EN]]]; cbn [obind].
  - rewrite ET. destruct (beside_char 41 o2 HP2) as [[-> _]|[->|[-> EN]]]; cbn [obind]; [rewrite HPS; now left|right; now left|].
    right. right. split; [reflexivity|]. intros x o' [= <- <-]. exact EN.
  - right. now left.
  - right. right. split; [reflexivity|]. intros x o' [= <- <-]. rewrite EN in ET. cbn in ET. injection ET as <- <-. reflexivity.
Qed.
Lemma value_lost key h x o : f_value key None h = Ok (x, o) -> o = None.
Proof. destruct (value_none key h) as [[-> _]|[(h1 & f1 & ->)| ->]]; [discriminate|intros [= <- <-]; reflexivity|discriminate]. Qed.
Lemma beside_value key o h : plain o -> beside (s_value key o h) (f_value key o h) /\ forall x o', f_value key o h = Ok (x, o') -> plain o'.
Proof.
  intros HP. unfold s_value, f_value. destruct (beq key (str "descr")).
  - destruct (f_string o) as [c o3] eqn:EF. assert (plain o3) as HP3.
    { destruct o3 as [r|]; [|exact I]. apply string_some in EF. destruct EF as (x & q & -> & _). cbn [plain] in HP.
      inversion HP as [|? ? _ HP']; subst. apply Forall_app in HP'. destruct HP' as [_ HP']. now inversion HP'. }
    split; [|intros x o'; destruct (f_code c) as [[[d e] n]|?| |?]; cbn [obind]; try discriminate; intros [= <- <-]; exact HP3].
    destruct (beside_string o HP) as [[-> _]|[->|[-> EN]]]; cbn [obind].
    + rewrite EF. now left.
    + right. now left.
    + right. right. split; [reflexivity|]. rewrite EF in EN. cbn [snd] in EN. subst o3. intros x o'.
      destruct (f_code c) as [[[d e] n]|?| |?]; cbn [obind]; try discriminate. intros [= <- <-]. reflexivity.
  - destruct (beq key (str "fortran_order")).
    + destruct (beside_bool o HP) as [HB HQ]. split.
      * destruct HB as [->|[->|[-> HN]]]; cbn [obind]; [now left|right; now left|]. right. right. split; [reflexivity|].
        intros x o'. destruct (f_bool o) as [[b o3]|?| |?] eqn:E; cbn [obind fst snd]; try discriminate. intros [= <- <-]. exact (HN _ _ eq_refl).
      * intros x o'. destruct (f_bool o) as [[b o3]|?| |?] eqn:E; cbn [obind fst snd]; try discriminate. intros [= <- <-]. exact (HQ _ _ eq_refl).
    + destruct (beq key (str "shape")); [|split; [now left|discriminate]]. destruct (beside_shape o HP) as [HB HQ]. split.
      * destruct HB as [->|[->|[-> HN]]]; cbn [obind]; [now left|right; now left|]. right. right. split; [reflexivity|].
        intros x o'. destruct (f_shape o) as [[b o3]|?| |?] eqn:E; cbn [obind fst snd]; try discriminate. intros [= <- <-]. exact (HN _ _ eq_refl).
      * intros x o'. destruct (f_shape o) as [[b o3]|?| |?] eqn:E; cbn [obind fst snd]; try discriminate. intros [= <- <-]. exact (HQ _ _ eq_refl).
Qed.
Lemma plain_char o : plain o -> plain (f_char o).
Proof. intros HP. destruct o as [[|x r]|]; cbn [f_char plain]; auto. cbn [plain] in HP. now inversion HP. Qed.
Lemma beside_entry o h : plain o -> beside (s_entry o h) (f_entry o h) /\ forall x o', f_entry o h = Ok (x, o') -> plain o'.
Proof.
  intros HP. rewrite entry_value. unfold s_entry. pose proof (plain_ws _ HP) as HP0.
  destruct (f_string (f_ws o)) as [key o1] eqn:EF.
  assert (beside (let* x := s_value key (f_ws (f_char (f_ws o1))) h in let '(h', f, o3) := x in let* o4 := s_char 44 o3 in Ok (h', f, f_ws o4))
     (let* x := f_value key (f_ws (f_char (f_ws o1))) h in let '(h', f, o3) := x in Ok (h', f, f_ws (f_char o3))) /\
     forall x o', (let* x := f_value key (f_ws (f_char (f_ws o1))) h in let '(h', f, o3) := x in Ok (h', f, f_ws (f_char o3))) = Ok (x, o') -> plain o') as [HB HQ].
  { assert (plain o1) as HP1.
    { destruct (beside_string _ HP0) as [[_ H]|H]; [rewrite EF in H; exact H|]. destruct o1 as [r|]; [|exact I].
      apply string_some in EF. destruct EF as (x & q & EF & _). rewrite EF in HP0. cbn [plain] in HP0.
      inversion HP0 as [|? ? _ HP']; subst. apply Forall_app in HP'. destruct HP' as [_ HP']. now inversion HP'. }
    pose proof (plain_ws _ (plain_char _ (plain_ws _ HP1))) as HP2. set (o2 := f_ws (f_char (f_ws o1))) in *. clearbody o2.
    destruct (beside_value key o2 h HP2) as [HB HQ]. split.
    - destruct HB as [->|[->|[-> HN]]]; cbn [obind]; [|right; now left|].
      + destruct (f_value key o2 h) as [[[h' f] o3]|?| |?] eqn:EV; cbn [obind]; try now left.
        destruct (beside_char 44 o3 (HQ _ _ eq_refl)) as [[-> _]|[->|[-> EN]]]; cbn [obind]; [now left|right; now left|].
        right. right. split; [reflexivity|]. intros x o' [= <- <-]. now rewrite EN.
      + right. right. split; [reflexivity|]. intros x o'. destruct (f_value key o2 h) as [[[h' f] o3]|?| |?] eqn:EV; cbn [obind]; try discriminate.
        rewrite (HN _ _ eq_refl). cbn. intros [= <- <-]. reflexivity.
    - intros x o'. destruct (f_value key o2 h) as [[[h' f] o3]|?| |?] eqn:EV; cbn [obind]; try discriminate. intros [= <- <-].
      apply plain_ws, plain_char. exact (HQ _ _ eq_refl). }
  split; [|exact HQ]. clear HQ.
  destruct (beside_string _ HP0) as [[-> HP1]|[->|[-> EN]]]; cbn [obind].
  - rewrite EF in HP1 |- *. cbn [snd] in HP1. destruct (beside_char 58 (f_ws o1) (plain_ws _ HP1)) as [[-> _]|[->|[-> EN]]]; cbn [obind]; [exact HB|right; now left|].
    right. right. split; [reflexivity|]. intros x o'. rewrite EN. change (f_ws None) with (@None bytes).
    destruct (f_value key None h) as [[[h' f] o3]|?| |?] eqn:EV; cbn [obind]; try discriminate. rewrite (value_lost _ _ _ _ EV). intros [= <- <-]. reflexivity.
  - right. now left.
  - right. right. split; [reflexivity|]. rewrite EF in EN. cbn [snd] in EN. subst o1. intros x o'. change (f_ws (f_char (f_ws None))) with (@None bytes).
    destruct (f_value key None h) as [[[h' f] o3]|?| |?] eqn:EV; cbn [obind]; try discriminate. rewrite (value_lost _ _ _ _ EV). intros [= <- <-]. reflexivity.
Qed.
Lemma f_entries_lost n h h' : f_entries n None h <> Ok h'. Proof. destruct n; discriminate. Qed.
Lemma beside_entries n : forall o h h', plain o -> f_entries n o h = Ok h' -> s_entries n o h = Ok h' \/ s_entries n o h = AssertFail.
Proof.
  induction n as [|n IH]; intros o h h' HP; [discriminate|].
  assert ((exists r, o = Some (125 :: r)) \/ (f_entries (S n) o h = (let* x := f_entry (match o with Some [] => None | _ => o end) h in let '(h', _, o') := x in f_entries n o' h') /\
    s_entries (S n) o h = (let* x := s_entry (match o with Some [] => None | _ => o end) h in let '(h', _, o') := x in s_entries n o' h'))) as [[r ->]|[-> ->]].
  { destruct o as [[|c r]|]; [right; split; reflexivity| |right; split; reflexivity].
    destruct (Z.eq_dec c 125) as [->|HN]; [left; eauto|]. right. cbn [f_entries s_entries].
    destruct c as [|c|c]; try (split; reflexivity). do 7 (destruct c as [c|c|]; try (split; reflexivity)). contradiction. }
  - cbn. intros [= <-]. now left.
  - set (o1 := match o with Some [] => None | _ => o end). assert (plain o1) as HP1 by (unfold o1; destruct o as [[|? ?]|]; exact HP || exact I). clearbody o1.
    destruct (beside_entry o1 h HP1) as [HB HQ]. destruct (f_entry o1 h) as [[[h1 f1] o2]|?| |?]; cbn [obind]; try discriminate. intros HF.
    destruct HB as [->|[->|[-> HN]]]; cbn [obind]; [|now right|].
    + apply IH; [exact (HQ _ _ eq_refl)|exact HF].
    + rewrite (HN _ _ eq_refl) in HF. exfalso. exact (f_entries_lost _ _ _ HF).
Qed.
