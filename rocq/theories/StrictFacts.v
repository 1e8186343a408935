(** The dictionary parser of a debug build, as functions of the text. *)
From Coq Require Import String ZArith List Bool Lia.
From Verif Require Import Base Stream BaseFacts Dtype Values Spec ValuesFacts PropValues Header HeaderFacts ParserInv ParserRel LenientSpec LenientFacts LenientText StrictSpec.
Import ListNotations.
Open Scope Z_scope.

Definition s_char (c : Z) (o : option bytes) : outcome (option bytes) :=
  match o with
  | Some (x :: r) => if x =? -1 then Undef UninitRead else if x =? c then Ok (Some r) else AssertFail
  | _ => Undef UninitRead
  end.
Definition s_string (o : option bytes) : outcome (bytes * option bytes) :=
  let* o1 := s_char 39 o in let (t, o2) := f_tok 39 o1 in let* o3 := s_char 39 o2 in Ok (t, o3).
Definition s_lit (x : bytes) (o : option bytes) : outcome (option bytes) :=
  match o with
  | Some r => if len r <? len x then AssertFail else if beq (ztake (len x) r) x then Ok (Some (zdrop (len x) r)) else AssertFail
  | None => AssertFail
  end.
Definition s_bool (o : option bytes) : outcome (bool * option bytes) :=
  match o with
  | Some (c :: _) => if c =? 84 then let* o' := s_lit (str "True") o in Ok (true, o')
                     else if c =? 70 then let* o' := s_lit (str "False") o in Ok (false, o') else Throw RuntimeError
  | _ => Throw RuntimeError
  end.
Definition s_shape (o : option bytes) : outcome (list Z * option bytes) :=
  let* o1 := s_char 40 o in let (t, o2) := f_tok 41 o1 in let* o3 := s_char 41 o2 in let* l := parse_shape t in Ok (l, o3).
Definition s_value (key : bytes) (o2 : option bytes) (h : header_info) : outcome (header_info * field_value * option bytes) :=
  if beq key (str "descr") then
    let* z := s_string o2 in let (c, o3) := (z : bytes * option bytes) in
    let* y := f_code c in
    let '(d, e, n) := y in Ok (mk_header (Some d) (Some e) (h_fortran h) (h_shape h) (Some n), FDescr c, o3)
  else if beq key (str "fortran_order") then
    let* y := s_bool o2 in Ok (mk_header (h_dtype h) (h_endian h) (Some (fst y)) (h_shape h) (h_maxlen h), FOrder (fst y), snd y)
  else if beq key (str "shape") then
    let* y := s_shape o2 in Ok (mk_header (h_dtype h) (h_endian h) (h_fortran h) (fst y) (h_maxlen h), FShape (fst y), snd y)
  else Throw RuntimeError.
Definition s_entry (o : option bytes) (h : header_info) : outcome (header_info * field_value * option bytes) :=
  let* z := s_string (f_ws o) in let (key, o1) := (z : bytes * option bytes) in
  let* o2 := s_char 58 (f_ws o1) in
  let* x := s_value key (f_ws o2) h in let '(h', f, o3) := x in
  let* o4 := s_char 44 o3 in Ok (h', f, f_ws o4).
Fixpoint s_entries (fuel : nat) (o : option bytes) (h : header_info) : outcome header_info :=
  match fuel with
  | O => Undef OutOfFuel
  | S n =>
      match o with
      | Some (125 :: _) => Ok h
      | _ => let* x := s_entry (match o with Some [] => None | _ => o end) h in let '(h', _, o') := x in s_entries n o' h'
      end
  end.

(** ** The parser follows them; [k] is what BUFFER is known to start with. *)
Definition known (k : bytes) (p : pst) : Prop := ztake (len k) (p_buf p) = k.
Definition tracks {A} (k : bytes) (m : M pst A) (k' : A -> bytes) (o : option bytes) (a : outcome (A * option bytes)) : Prop :=
  forall p, at_ p o -> map_ok (p_map p) -> known k p ->
  map_ok (p_map (snd (m p))) /\
  match a with
  | Ok (x, o') => fst (m p) = Ok x /\ at_ (snd (m p)) o' /\ known (k' x) (snd (m p))
  | Throw e => fst (m p) = Throw e
  | AssertFail => fst (m p) = AssertFail
  | Undef u => fst (m p) = Undef u
  end.
Lemma known_nil p : known [] p. Proof. unfold known. apply ztake_0. reflexivity. Qed.
Lemma tracks_bind {A B} k (m : M pst A) k1 (f : A -> M pst B) k2 o a g :
  tracks k m k1 o a -> (forall x o', a = Ok (x, o') -> tracks (k1 x) (f x) k2 o' (g (x, o'))) -> tracks k (bind m f) k2 o (obind a g).
Proof.
  intros Hm Hk p Hp Hmap HB. unfold bind. destruct (Hm p Hp Hmap HB) as [H1 H2].
  destruct (m p) as [out p1] eqn:E. cbn [fst snd] in *.
  destruct a as [[x o']|e| |u]; cbn [obind].
  - destruct H2 as (-> & H2 & H3). cbn [fst snd]. destruct (Hk x o' eq_refl p1 H2 H1 H3) as [H4 H5]. destruct (f x p1); auto.
  - subst out. cbn [fst snd]. auto.
  - subst out. cbn [fst snd]. auto.
  - subst out. cbn [fst snd]. auto.
Qed.
Lemma tracks_eq {A} k (m : M pst A) k' o a b : tracks k m k' o a -> a = b -> tracks k m k' o b.
Proof. now intros H <-. Qed.
Lemma tracks_ret {A} k (x : A) o : tracks k (ret x) (fun _ => k) o (Ok (x, o)).
Proof. intros p Hp Hm HK. cbn. auto. Qed.
Lemma tracks_lift {A} k (x : outcome A) o : tracks k (lift x) (fun _ => k) o (let* y := x in Ok (y, o)).
Proof. intros p Hp Hm HK. cbn. destruct x; cbn; auto. Qed.
Lemma tracks_throw {A} k k' e o : tracks k (lift (@Throw A e)) k' o (Throw e).
Proof. intros p Hp Hm HK. cbn. auto. Qed.
(** Forget the buffer. *)
Lemma tracks_any {A} k (m : M pst A) k' o a : tracks [] m k' o a -> tracks k m k' o a.
Proof. intros H p Hp Hm _. apply H; auto using known_nil. Qed.
Lemma tracks_drop {A} k (m : M pst A) k' o a : tracks k m k' o a -> tracks k m (fun _ => []) o a.
Proof.
  intros H p Hp Hm HK. destruct (H p Hp Hm HK) as [H1 H2]. split; [exact H1|]. destruct a as [[x o']|e| |u]; auto.
  destruct H2 as (H2 & H3 & _). auto using known_nil.
Qed.

Lemma tracks_char k v c o : dbg v = true -> tracks k (p_char v c) (fun _ => k) o (let* o' := s_char c o in Ok (tt, o')).
Proof.
  intros HD p Hp Hm HK. unfold p_char, p_get, with_in, bind. rewrite HD. unfold at_ in Hp. unfold sget.
  destruct o as [r|].
  - destruct Hp as [G R]. rewrite G, R. destruct r as [|x r]; cbn [fst snd ret p_map p_in s_char obind].
    + auto.
    + destruct (x =? -1); [cbn; auto|]. destruct (x =? c); cbn [obind fst snd ret lift p_map p_in]; [|auto].
      split; [exact Hm|]. split; [reflexivity|]. split; [|exact HK]. cbn [at_ p_in]. rewrite good_set_rest. auto.
  - rewrite Hp. cbn. auto.
Qed.
Lemma tracks_peek k o : tracks k p_peek (fun _ => k) o (Ok (match o with Some (c :: _) => c | _ => -1 end, match o with Some [] => None | _ => o end)).
Proof.
  intros p Hp Hm HK. destruct (follows_peek o p Hp Hm) as [H1 [H2 H3]]. split; [exact H1|]. split; [exact H2|]. split; [exact H3|].
  unfold p_peek, with_in in *. destruct (speek (p_in p)). exact HK.
Qed.
Lemma tracks_ws k o : tracks k p_skip_ws (fun _ => k) o (Ok (tt, f_ws o)).
Proof.
  intros p Hp Hm HK. destruct (follows_ws o p Hp Hm) as [H1 [H2 H3]]. split; [exact H1|]. split; [exact H2|]. split; [exact H3|].
  unfold p_skip_ws in *. destruct (skip_ws (p_in p)). exact HK.
Qed.
Lemma take_until_len delim l : forall n a b e, 0 <= n -> take_until n delim l = (a, b, e) -> len a <= n.
Proof. intros n a b e Hn H. apply take_until_spec in H; [|exact Hn]. tauto. Qed.
Lemma tracks_tok k v delim o : 0 <= delim -> tracks k (p_read_to v delim) (fun t => t) o (Ok (f_tok delim o)).
Proof.
  intros Hd. unfold p_read_to.
  assert (Ok (f_tok delim o) = obind (Ok (match o with Some (c :: _) => c | _ => -1 end, match o with Some [] => None | _ => o end))
    (fun x => let (c, o') := x in if c =? delim then Ok ([], o') else
       Ok (match o' with Some (c :: r) => let '(a, b, e) := take_until 65535 delim (c :: r) in (a, if e then None else Some b) | _ => ([], None) end))) as ->.
  { cbn [obind]. unfold f_tok. destruct o as [[|c r]|].
    - destruct (-1 =? delim) eqn:E; [lia|reflexivity].
    - destruct (c =? delim); reflexivity.
    - destruct (-1 =? delim) eqn:E; [lia|reflexivity]. }
  eapply tracks_bind; [apply tracks_peek|]. intros c o' HE. cbv beta iota. 
  destruct (c =? delim) eqn:EC.
  { intros p Hp Hm HK. cbn. split; [exact Hm|]. split; [reflexivity|]. split; [exact Hp|apply known_nil]. }
  intros p Hp Hm HK. unfold sgetbuf. unfold at_ in Hp. destruct o' as [[|x r]|].
  - exfalso. destruct o as [[|? ?]|]; congruence.
  - destruct Hp as [G R]. rewrite G, R. change (BUFFER_SIZE - 1) with 65535.
    assert (c = x) as -> by (destruct o as [[|? ?]|]; congruence).
    destruct (take_until 65535 delim (x :: r)) as [[a b] e] eqn:ET.
    assert (exists a', a = x :: a') as [a' Ea].
    { cbn [take_until] in ET. rewrite EC in ET. change (65535 <=? 0) with false in ET. cbv iota in ET.
      destruct (take_until (65535 - 1) delim r) as [[? ?] ?]. injection ET as <- _ _. eauto. }
    assert (len a <= 65535) as HL by (apply (take_until_len delim (x :: r) 65535 a b e ltac:(lia)); exact ET).
    rewrite Ea. rewrite <- Ea. assert (len a <? BUFFER_SIZE = true) as -> by (unfold BUFFER_SIZE; lia). rewrite andb_false_r. cbn [fst snd p_map p_in].
    assert (ztake (len a) (blit (a ++ [0]) (p_buf p)) = a) as HZ by (unfold blit; rewrite <- app_assoc; now rewrite ztake_app_exact).
    split; [exact Hm|]. split; [now f_equal|]. split; [|exact HZ].
    destruct e; cbn [at_ p_in]; [apply good_eof|]. rewrite good_set_rest. auto.
  - rewrite Hp. cbn [fst snd p_map p_in at_]. change (len (@nil Z) <? BUFFER_SIZE) with true. rewrite andb_false_r.
    split; [exact Hm|]. split; [reflexivity|]. split; [apply good_fail|apply known_nil].
Qed.
Lemma tracks_string k v o : dbg v = true -> tracks k (p_string v) (fun t => t) o (s_string o).
Proof.
  intros HD. unfold p_string.
  apply (tracks_eq _ _ _ _ (obind (let* o' := s_char 39 o in Ok (tt, o')) (fun x => obind (Ok (f_tok 39 (snd x))) (fun y =>
    obind (let* o' := s_char 39 (snd y) in Ok (tt, o')) (fun z => Ok (fst y, snd z)))))).
  - eapply tracks_bind; [now apply tracks_char|]. intros [] o1 _.
    eapply tracks_bind; [apply tracks_tok; lia|]. intros t o2 _.
    eapply tracks_bind; [now apply tracks_char|]. intros [] o3 _. cbn [fst snd].
    intros p Hp Hm HK. cbn. auto.
  - unfold s_string. destruct (s_char 39 o) as [o1|e| |u]; cbn [obind snd fst]; try reflexivity.
    destruct (f_tok 39 o1) as [t o2]. cbn [fst snd]. destruct (s_char 39 o2); reflexivity.
Qed.
Lemma tracks_lit v x o : dbg v = true -> x = str "True" \/ x = str "False" ->
  tracks (str "fortran_order") (p_lit v x) (fun _ => []) o (let* o' := s_lit x o in Ok (tt, o')).
Proof.
  intros HD Hx p Hp Hm HK. unfold p_lit, sread. rewrite HD. unfold at_ in Hp. destruct o as [r|].
  - destruct Hp as [G R]. rewrite G, R. rewrite len_ztake. pose proof (len_nonneg _ x). pose proof (len_nonneg _ r).
    cbn [s_lit]. destruct (Z.max 0 (Z.min (len x) (len r)) <? len x) eqn:E; cbn [fst snd p_map p_in].
    + assert (len r <? len x = true) as -> by lia. split; [exact Hm|]. cbn [obind].
      rewrite lit_stale; [reflexivity|exact Hx|exact HK|rewrite len_ztake; lia].
    + assert (len r <? len x = false) as -> by lia. split; [exact Hm|].
      assert (ztake (len x) (blit (ztake (len x) r) (p_buf p)) = ztake (len x) r) as ->.
      { unfold blit. apply ztake_app_exact. rewrite len_ztake. lia. }
      destruct (beq (ztake (len x) r) x); cbn [obind]; [|reflexivity]. split; [reflexivity|]. split; [|apply known_nil].
      cbn [at_ p_in]. rewrite good_set_rest. auto.
  - rewrite Hp. cbn [fst snd p_map p_in s_lit obind]. split; [exact Hm|].
    rewrite lit_stale; [reflexivity|exact Hx|exact HK|]. destruct Hx as [-> | ->]; vm_compute; reflexivity.
Qed.
Lemma tracks_bool v o : dbg v = true -> tracks (str "fortran_order") (p_bool v) (fun _ => []) o (s_bool o).
Proof.
  intros HD. unfold p_bool.
  assert (forall (x : bytes) (b : bool) (o' : option bytes), x = str "True" \/ x = str "False" -> tracks (str "fortran_order") (bind (p_lit v x) (fun _ => ret b)) (fun _ => []) o' (let* z := s_lit x o' in Ok (b, z))) as HL.
  { intros x b o' Hx. apply (tracks_eq _ _ _ _ (obind (let* z := s_lit x o' in Ok (tt, z)) (fun y => Ok (b, snd y)))).
    - eapply tracks_bind; [now apply tracks_lit|]. intros [] o2 _. apply tracks_ret.
    - destruct (s_lit x o'); reflexivity. }
  apply (tracks_eq _ _ _ _ (obind (Ok (match o with Some (c :: _) => c | _ => -1 end, match o with Some [] => None | _ => o end))
     (fun z => let (c, o1) := z in if c =? 84 then let* o' := s_lit (str "True") o1 in Ok (true, o') else
       obind (Ok (match o1 with Some (c :: _) => c | _ => -1 end, match o1 with Some [] => None | _ => o1 end)) (fun z2 => let (c2, o2) := z2 in
       if c2 =? 70 then let* o' := s_lit (str "False") o2 in Ok (false, o') else Throw RuntimeError)))).
  - eapply tracks_bind; [apply tracks_peek|]. intros c o1 _. cbv beta iota. destruct (c =? 84); [apply HL; now left|].
    eapply tracks_bind; [apply tracks_peek|]. intros c2 o2 _. cbv beta iota. destruct (c2 =? 70); [apply HL; now right|apply tracks_throw].
  - cbn [obind]. destruct o as [[|c r]|]; cbn [s_bool]; reflexivity.
Qed.
Lemma tracks_shape k v o : dbg v = true -> tracks k (p_shape v) (fun _ => []) o (s_shape o).
Proof.
  intros HD. unfold p_shape.
  apply (tracks_eq _ _ _ _ (obind (let* o' := s_char 40 o in Ok (tt, o')) (fun x => obind (Ok (f_tok 41 (snd x))) (fun y =>
    obind (let* o' := s_char 41 (snd y) in Ok (tt, o')) (fun z => let* l := parse_shape (fst y) in Ok (l, snd z)))))).
  - eapply tracks_bind; [now apply tracks_char|]. intros [] o1 _.
    eapply tracks_bind; [apply tracks_tok; lia|]. intros t o2 _.
    eapply tracks_bind; [now apply tracks_char|]. intros [] o3 _. cbn [fst snd]. eapply tracks_drop, tracks_lift.
  - unfold s_shape. destruct (s_char 40 o) as [o1|e| |u]; cbn [obind snd fst]; try reflexivity.
    destruct (f_tok 41 o1) as [t o2]. cbn [fst snd]. destruct (s_char 41 o2); reflexivity.
Qed.
Lemma tracks_descr k c o : tracks k (p_descr c) (fun _ => k) o (let* x := f_code c in Ok (x, o)).
Proof.
  intros p Hp Hm HK. destruct (follows_descr c o p Hp Hm) as [H1 H2]. split; [exact H1|].
  assert (p_buf (snd (p_descr c p)) = p_buf p) as HB.
  { unfold p_descr, bind, lift, ret. destruct c as [|c0 t]; [reflexivity|]. destruct (match t with [] => _ | _ => _ end).
    - destruct (stoi (zdrop 2 (c0 :: t))); reflexivity.
    - destruct (from_dtype (c0 :: t) (p_map p)) as [[? ?] ?]. reflexivity. }
  destruct (f_code c) as [x|e| |u]; cbn [obind] in *; [|exact H2|exact H2|exact H2].
  destruct H2 as [H2 H3]. split; [exact H2|]. split; [exact H3|]. unfold known. rewrite HB. exact HK.
Qed.
Lemma tracks_entry v h o : dbg v = true -> tracks [] (p_entry v h) (fun _ => []) o (let* x := s_entry o h in let '(h', _, o') := x in Ok (h', o')).
Proof.
  intros HD. unfold p_entry.
  apply (tracks_eq _ _ _ _
   (obind (Ok (tt, f_ws o)) (fun x1 => obind (s_string (snd x1)) (fun x2 => obind (Ok (tt, f_ws (snd x2))) (fun x3 =>
    obind (let* o' := s_char 58 (snd x3) in Ok (tt, o')) (fun x4 => obind (Ok (tt, f_ws (snd x4))) (fun x5 =>
    obind (let* y := s_value (fst x2) (snd x5) h in let '(h', _, o') := y in Ok (h', o')) (fun x6 =>
    obind (let* o' := s_char 44 (snd x6) in Ok (tt, o')) (fun x7 => obind (Ok (tt, f_ws (snd x7))) (fun x8 => Ok (fst x6, snd x8))))))))))).
  2:{ cbn [obind snd fst]. unfold s_entry. destruct (s_string (f_ws o)) as [[key o1]|e| |u]; cbn [obind fst snd]; try reflexivity.
      destruct (s_char 58 (f_ws o1)) as [o2|e| |u]; cbn [obind fst snd]; try reflexivity.
      destruct (s_value key (f_ws o2) h) as [[[h' f] o3]|e| |u]; cbn [obind fst snd]; try reflexivity.
      destruct (s_char 44 o3); reflexivity. }
  eapply tracks_bind; [apply tracks_ws|]. intros [] o1 _. cbn [snd].
  eapply tracks_bind; [now apply tracks_string|]. intros key o2 _. cbn [snd fst].
  eapply tracks_bind; [apply tracks_ws|]. intros [] o3 _. cbn [snd].
  eapply tracks_bind; [now apply tracks_char|]. intros [] o4 _. cbn [snd].
  eapply tracks_bind; [apply tracks_ws|]. intros [] o5 _. cbn [snd].
  eapply (tracks_bind _ _ (fun _ => [])).
  - unfold s_value. destruct (beq key (str "descr")).
    + apply (tracks_eq _ _ _ _ (obind (s_string o5) (fun z => obind (let* y := f_code (fst z) in Ok (y, snd z)) (fun y => let '((d, e, n), o7) := y in
          Ok (mk_header (Some d) (Some e) (h_fortran h) (h_shape h) (Some n), o7))))).
      * eapply tracks_bind; [now apply tracks_string|]. intros c o6 _. cbn [fst snd].
        eapply tracks_bind; [apply tracks_descr|]. intros [[d e] n] o7 _. eapply tracks_drop, tracks_ret.
      * destruct (s_string o5) as [[c o6]|e| |u]; cbn [obind fst snd]; try reflexivity. destruct (f_code c) as [[[d e] n]|e| |u]; reflexivity.
    + destruct (beq key (str "fortran_order")) eqn:EK.
      * apply beq_eq in EK. subst key.
        apply (tracks_eq _ _ _ _ (obind (s_bool o5) (fun x => Ok (mk_header (h_dtype h) (h_endian h) (Some (fst x)) (h_shape h) (h_maxlen h), snd x)))).
        -- eapply tracks_bind; [now apply tracks_bool|]. intros b o6 HE. apply tracks_ret.
        -- destruct (s_bool o5) as [[b o6]|e| |u]; reflexivity.
      * destruct (beq key (str "shape")).
        -- apply (tracks_eq _ _ _ _ (obind (s_shape o5) (fun x => Ok (mk_header (h_dtype h) (h_endian h) (h_fortran h) (fst x) (h_maxlen h), snd x)))).
           ++ eapply tracks_bind; [now apply tracks_shape|]. intros b o6 HE. apply tracks_ret.
           ++ destruct (s_shape o5) as [[b o6]|e| |u]; reflexivity.
        -- apply tracks_throw.
  - intros h' o6 _. cbn [snd fst].
    eapply tracks_bind; [now apply tracks_char|]. intros [] o7 _. cbn [snd].
    eapply tracks_bind; [apply tracks_ws|]. intros [] o8 _. apply tracks_ret.
Qed.
Lemma tracks_entries v n : dbg v = true -> forall h o p, at_ p o -> map_ok (p_map p) ->
  fst (p_entries v n h p) = s_entries n o h.
Proof.
  intros HD. induction n as [|n IH]; intros h o p Hp Hm; [cbn; auto|].
  remember (p_entries v (S n) h p) as res eqn:ER. cbn [p_entries] in ER. unfold bind at 1 in ER.
  destruct (follows_peek o p Hp Hm) as [M1 [F1 A1]]. destruct (p_peek p) as [out p1]. cbn [fst snd] in *. subst out.
  destruct ((match o with Some (c :: _) => c | _ => -1 end) =? 125) eqn:E.
  - assert (exists r, o = Some (125 :: r)) as [r ->].
    { destruct o as [[|c r]|]; [discriminate|apply Z.eqb_eq in E; subst c; eauto|discriminate]. }
    unfold bind in ER. destruct (tracks_char [] v 125 (Some (125 :: r)) HD p1 A1 M1 (known_nil _)) as [M2 F2]. cbn in F2. destruct F2 as [F2 _].
    destruct (p_char v 125 p1) as [out2 p2]. cbn [fst snd] in *. subst out2. subst res. cbn. auto.
  - assert (s_entries (S n) o h = (let* x := s_entry (match o with Some [] => None | _ => o end) h in let '(h', _, o') := x in s_entries n o' h')) as EF.
    { cbn [s_entries]. destruct o as [[|c r]|]; try reflexivity.
      destruct (Z.eq_dec c 125) as [->|HN]; [discriminate|].
      destruct c as [|c|c]; try reflexivity. do 7 (destruct c as [c|c|]; try reflexivity). contradiction. }
    rewrite EF. clear EF.
    set (o1 := match o with Some [] => None | _ => o end) in *.
    pose proof (tracks_entry v h o1 HD p1 A1 M1 (known_nil _)) as [M2 F2]. unfold bind in ER.
    destruct (p_entry v h p1) as [out2 p2]. cbn [fst snd] in *.
    destruct (s_entry o1 h) as [[[h' f] o']|e| |u]; cbn [obind] in *.
    + destruct F2 as (-> & A2 & _). subst res. apply IH; assumption.
    + subst out2 res. cbn. auto.
    + subst out2 res. cbn. auto.
    + subst out2 res. cbn. auto.
Qed.
Lemma parse_strict v d g : dbg v = true -> map_ok (snd g) ->
  fst (parse_dictionary v d g) = let* o := s_char 123 (Some d) in s_entries (S (length d)) o header_uninit.
Proof.
  intros HD Hm. unfold parse_dictionary. set (p := mk_pst (open_str d) (fst g) (snd g)).
  assert (at_ p (Some d)) as Hp by (split; reflexivity). unfold bind.
  destruct (tracks_char [] v 123 (Some d) HD p Hp Hm (known_nil _)) as [M1 F1]. destruct (p_char v 123 p) as [out p1]. cbn [fst snd] in *.
  destruct (s_char 123 (Some d)) as [o|e| |u]; cbn [obind] in *; [|subst out; reflexivity|subst out; reflexivity|subst out; reflexivity].
  destruct F1 as (-> & A1 & _).
  pose proof (tracks_entries v (S (length d)) HD header_uninit _ p1 A1 M1) as E.
  destruct (p_entries v (S (length d)) header_uninit p1). exact E.
Qed.
