(** The dictionary parser of a release build, as functions of the text. *)
From Coq Require Import String ZArith List Bool Lia.
From Verif Require Import Base Stream BaseFacts Dtype Values Spec ValuesFacts PropValues Header HeaderFacts ParserInv ParserRel LenientSpec.
Import ListNotations.
Open Scope Z_scope.

(** [Some r]: the stream is good and [r] is unread; [None]: it is not good. *)
Definition at_ (p : pst) (o : option bytes) : Prop :=
  match o with
  | Some r => good (p_in p) = true /\ rest (p_in p) = r
  | None => good (p_in p) = false
  end.
Definition f_ws (o : option bytes) : option bytes :=
  match o with Some r => match drop_spaces r with [] => None | r' => Some r' end | None => None end.
Definition f_char (o : option bytes) : option bytes :=
  match o with Some (_ :: r) => Some r | _ => None end.
Definition f_tok (delim : Z) (o : option bytes) : bytes * option bytes :=
  match o with
  | Some (c :: r) =>
      if c =? delim then ([], o)
      else let '(a, b, e) := take_until 65535 delim (c :: r) in (a, if e then None else Some b)
  | _ => ([], None)
  end.
Definition f_string (o : option bytes) : bytes * option bytes :=
  let (t, o1) := f_tok 39 (f_char o) in (t, f_char o1).
Definition f_skip (n : Z) (o : option bytes) : option bytes :=
  match o with Some r => if len r <? n then None else Some (zdrop n r) | None => None end.
Definition f_bool (o : option bytes) : outcome (bool * option bytes) :=
  match o with
  | Some (c :: _) => if c =? 84 then Ok (true, f_skip 4 o) else if c =? 70 then Ok (false, f_skip 5 o) else Throw RuntimeError
  | _ => Throw RuntimeError
  end.
Definition f_shape (o : option bytes) : outcome (list Z * option bytes) :=
  let (t, o1) := f_tok 41 (f_char o) in let* l := parse_shape t in Ok (l, f_char o1).
Definition f_code (c : bytes) : outcome (dtype * endian * Z) :=
  match c with
  | [] => Undef OutOfBounds
  | c0 :: t =>
      if (match t with c1 :: _ => c1 =? 85 | [] => false end) then
        let* n := stoi (zdrop 2 c) in Ok (UNICODE_STRING, if c0 =? 62 then BIG else LITTLE, u64 n)
      else let (d, e) := fst (from_dtype c DTYPE_MAP) in Ok (d, e, 0)
  end.
(** One entry: the field and how the header changes. *)
Definition f_entry (o : option bytes) (h : header_info) : outcome (header_info * field_value * option bytes) :=
  let (key, o1) := f_string (f_ws o) in
  let o2 := f_ws (f_char (f_ws o1)) in
  let* x :=
    (if beq key (str "descr") then
       let (c, o3) := f_string o2 in
       let* y := f_code c in
       let '(d, e, n) := y in Ok (mk_header (Some d) (Some e) (h_fortran h) (h_shape h) (Some n), FDescr c, o3)
     else if beq key (str "fortran_order") then
       let* y := f_bool o2 in Ok (mk_header (h_dtype h) (h_endian h) (Some (fst y)) (h_shape h) (h_maxlen h), FOrder (fst y), snd y)
     else if beq key (str "shape") then
       let* y := f_shape o2 in Ok (mk_header (h_dtype h) (h_endian h) (h_fortran h) (fst y) (h_maxlen h), FShape (fst y), snd y)
     else Throw RuntimeError) in
  let '(h', f, o3) := x in Ok (h', f, f_ws (f_char o3)).
Fixpoint f_entries (fuel : nat) (o : option bytes) (h : header_info) : outcome header_info :=
  match fuel with
  | O => Undef OutOfFuel
  | S n =>
      match o with
      | Some (125 :: _) => Ok h
      | _ => let* x := f_entry (match o with Some [] => None | _ => o end) h in let '(h', _, o') := x in f_entries n o' h'
      end
  end.

(** ** The parser follows them *)
Definition follows {A} (m : M pst A) (o : option bytes) (a : outcome (A * option bytes)) : Prop :=
  forall p, at_ p o -> map_ok (p_map p) ->
  map_ok (p_map (snd (m p))) /\
  match a with
  | Ok (x, o') => fst (m p) = Ok x /\ at_ (snd (m p)) o'
  | Throw e => fst (m p) = Throw e
  | AssertFail => fst (m p) = AssertFail
  | Undef u => fst (m p) = Undef u
  end.
Lemma follows_bind {A B} (m : M pst A) (k : A -> M pst B) o a f :
  follows m o a -> (forall x o', a = Ok (x, o') -> follows (k x) o' (f (x, o'))) -> follows (bind m k) o (obind a f).
Proof.
  intros Hm Hk p Hp Hmap. unfold bind. destruct (Hm p Hp Hmap) as [H1 H2].
  destruct (m p) as [out p1] eqn:E. cbn [fst snd] in *.
  destruct a as [[x o']|e| |u]; cbn [obind].
  - destruct H2 as [-> H2]. cbn [fst snd]. destruct (Hk x o' eq_refl p1 H2 H1) as [H3 H4]. destruct (k x p1); auto.
  - subst out. cbn [fst snd]. auto.
  - subst out. cbn [fst snd]. auto.
  - subst out. cbn [fst snd]. auto.
Qed.
Lemma follows_ret {A} (x : A) o : follows (ret x) o (Ok (x, o)).
Proof. intros p Hp Hm. cbn. auto. Qed.
Lemma follows_lift {A} (x : outcome A) o : follows (lift x) o (let* y := x in Ok (y, o)).
Proof. intros p Hp Hm. cbn. destruct x; cbn; auto. Qed.
Lemma good_eof s : good (set_eof s) = false. Proof. unfold good, set_eof. cbn. reflexivity. Qed.
Lemma good_fail s : good (set_fail s) = false. Proof. unfold good, set_fail. cbn. apply andb_false_r. Qed.
Lemma good_set_rest s r : good (set_rest s r) = good s. Proof. reflexivity. Qed.

Lemma follows_char v c o : dbg v = false -> follows (p_char v c) o (Ok (tt, f_char o)).
Proof.
  intros HD p Hp Hm. unfold p_char, p_get, with_in, bind. rewrite HD. unfold at_ in Hp. unfold sget.
  destruct o as [r|].
  - destruct Hp as [G R]. rewrite G, R. destruct r as [|x r]; cbn [fst snd ret p_map p_in f_char at_].
    + split; [exact Hm|]. split; [reflexivity|]. apply good_fail.
    + split; [exact Hm|]. split; [reflexivity|]. rewrite good_set_rest. auto.
  - rewrite Hp. cbn [fst snd ret p_map p_in f_char at_]. split; [exact Hm|]. split; [reflexivity|]. apply good_fail.
Qed.
Lemma follows_peek o : follows p_peek o (Ok (match o with Some (c :: _) => c | _ => -1 end, match o with Some [] => None | _ => o end)).
Proof.
  intros p Hp Hm. unfold p_peek, with_in, speek. unfold at_ in Hp. destruct o as [r|].
  - destruct Hp as [G R]. rewrite G, R. destruct r as [|x r]; cbn [fst snd p_map p_in at_].
    + split; [exact Hm|]. split; [reflexivity|]. apply good_eof.
    + auto.
  - rewrite Hp. cbn [fst snd p_map p_in at_]. split; [exact Hm|]. split; [reflexivity|]. apply good_fail.
Qed.
Lemma skip_ws_bad s n : good s = false -> skip_ws_loop (S n) s = (Ok tt, set_fail s).
Proof. intros G. cbn [skip_ws_loop]. unfold speek. rewrite G. reflexivity. Qed.
Lemma skip_ws_good n : forall s, good s = true -> (length (rest s) < n)%nat ->
  skip_ws_loop n s = (Ok tt, let r := drop_spaces (rest s) in match r with [] => set_eof (set_rest s []) | _ => set_rest s r end).
Proof.
  induction n as [|n IH]; intros s G HL; [lia|]. cbn [skip_ws_loop]. unfold speek. rewrite G.
  destruct (rest s) as [|c r] eqn:R.
  - change (is_space (-1)) with false. cbv iota. cbn [drop_spaces]. cbv zeta. f_equal. unfold set_eof, set_rest. cbn. now rewrite <- R at 1.
  - cbn [drop_spaces]. destruct (is_space c) eqn:ES.
    + unfold sget. rewrite G, R. rewrite IH by (first [exact G | cbn [set_rest rest]; cbn [length] in HL; lia]).
      cbn [set_rest rest]. reflexivity.
    + cbv zeta. f_equal. unfold set_rest. rewrite <- R. now destruct s.
Qed.
Lemma follows_ws o : follows p_skip_ws o (Ok (tt, f_ws o)).
Proof.
  intros p Hp Hm. unfold p_skip_ws, skip_ws. unfold at_ in Hp. destruct o as [r|].
  - destruct Hp as [G R]. rewrite skip_ws_good by (auto; lia). rewrite R. cbv zeta. cbn [fst snd p_map p_in f_ws].
    split; [exact Hm|]. split; [reflexivity|]. destruct (drop_spaces r); cbn [at_ p_in]; [apply good_eof|]. rewrite good_set_rest. auto.
  - rewrite skip_ws_bad by exact Hp. cbn [fst snd p_map p_in f_ws at_]. split; [exact Hm|]. split; [reflexivity|]. apply good_fail.
Qed.
Lemma follows_tok v delim o : dbg v = false -> 0 <= delim -> follows (p_read_to v delim) o (Ok (f_tok delim o)).
Proof.
  intros HD Hd. unfold p_read_to.
  assert (Ok (f_tok delim o) = obind (Ok (match o with Some (c :: _) => c | _ => -1 end, match o with Some [] => None | _ => o end))
    (fun x => let (c, o') := x in if c =? delim then Ok ([], o') else
       Ok (match o' with Some (c :: r) => let '(a, b, e) := take_until 65535 delim (c :: r) in (a, if e then None else Some b) | _ => ([], None) end))) as ->.
  { cbn [obind]. unfold f_tok. destruct o as [[|c r]|].
    - destruct (-1 =? delim) eqn:E; [lia|reflexivity].
    - destruct (c =? delim); reflexivity.
    - destruct (-1 =? delim) eqn:E; [lia|reflexivity]. }
  apply follows_bind; [apply follows_peek|]. intros c o' HE. cbv beta iota. 
  destruct (c =? delim) eqn:EC; [apply follows_ret|].
  intros p Hp Hm. unfold sgetbuf. unfold at_ in Hp. destruct o' as [[|x r]|].
  - exfalso. destruct o as [[|? ?]|]; congruence.
  - destruct Hp as [G R]. rewrite G, R. change (BUFFER_SIZE - 1) with 65535.
    assert (c = x) as -> by (destruct o as [[|? ?]|]; congruence).
    destruct (take_until 65535 delim (x :: r)) as [[a b] e] eqn:ET.
    assert (exists a', a = x :: a') as [a' Ea].
    { cbn [take_until] in ET. rewrite EC in ET. change (65535 <=? 0) with false in ET. cbv iota in ET.
      destruct (take_until (65535 - 1) delim r) as [[? ?] ?]. injection ET as <- _ _. eauto. }
    rewrite Ea. rewrite <- Ea. rewrite HD. cbn [andb fst snd p_map p_in].
    split; [exact Hm|]. split.
    + f_equal. unfold blit. rewrite <- app_assoc. now rewrite ztake_app_exact.
    + destruct e; cbn [at_ p_in]; [apply good_eof|]. rewrite good_set_rest. auto.
  - rewrite Hp. rewrite HD. cbn [andb fst snd p_map p_in at_]. split; [exact Hm|]. split; [reflexivity|apply good_fail].
Qed.
Lemma follows_string v o : dbg v = false -> follows (p_string v) o (Ok (f_string o)).
Proof.
  intros HD. unfold p_string.
  assert (Ok (f_string o) = obind (Ok (tt, f_char o)) (fun x => obind (Ok (f_tok 39 (snd x))) (fun y => obind (Ok (tt, f_char (snd y))) (fun z => Ok (fst y, snd z))))) as ->.
  { unfold f_string. cbn [obind snd fst]. destruct (f_tok 39 (f_char o)). reflexivity. }
  apply follows_bind; [now apply follows_char|]. intros [] o1 _.
  apply follows_bind; [apply follows_tok; [exact HD|lia]|]. intros t o2 _.
  apply follows_bind; [now apply follows_char|]. intros [] o3 _. apply follows_ret.
Qed.
Lemma follows_lit v x o : dbg v = false -> follows (p_lit v x) o (Ok (tt, f_skip (len x) o)).
Proof.
  intros HD p Hp Hm. unfold p_lit, sread. unfold at_ in Hp. destruct o as [r|].
  - destruct Hp as [G R]. rewrite G, R, HD. rewrite len_ztake. pose proof (len_nonneg _ x). pose proof (len_nonneg _ r).
    cbn [f_skip]. destruct (Z.max 0 (Z.min (len x) (len r)) <? len x) eqn:E; cbn [fst snd p_map p_in].
    + assert (len r <? len x = true) as -> by lia. split; [exact Hm|]. split; [reflexivity|]. apply good_fail.
    + assert (len r <? len x = false) as -> by lia. split; [exact Hm|]. split; [reflexivity|]. cbn [at_ p_in]. rewrite good_set_rest. auto.
  - rewrite Hp, HD. cbn [fst snd p_map p_in f_skip at_]. split; [exact Hm|]. split; [reflexivity|]. apply good_fail.
Qed.
Lemma follows_eq {A} (m : M pst A) o a b : follows m o a -> a = b -> follows m o b.
Proof. now intros H <-. Qed.
Lemma follows_ok {A B} (m : M pst A) (k : A -> M pst B) o x o' b :
  follows m o (Ok (x, o')) -> follows (k x) o' b -> follows (bind m k) o b.
Proof.
  intros Hm Hk. apply (follows_eq _ _ (obind (Ok (x, o')) (fun _ => b))); [|reflexivity].
  apply follows_bind; [exact Hm|]. intros y o2 [= <- <-]. exact Hk.
Qed.
Lemma follows_throw {A} e o : follows (lift (@Throw A e)) o (Throw e).
Proof. intros p Hp Hm. cbn. auto. Qed.
Lemma follows_bool v o : dbg v = false -> follows (p_bool v) o (f_bool o).
Proof.
  intros HD. unfold p_bool. eapply follows_ok; [apply follows_peek|]. cbv beta.
  destruct o as [[|c r]|]; cbn [f_bool].
  - change (-1 =? 84) with false. cbv iota. eapply follows_ok; [apply follows_peek|]. apply follows_throw.
  - destruct (c =? 84).
    + eapply follows_ok; [apply (follows_lit v (str "True") _ HD)|]. apply follows_ret.
    + eapply follows_ok; [apply follows_peek|]. cbv beta iota. destruct (c =? 70); [|apply follows_throw].
      eapply follows_ok; [apply (follows_lit v (str "False") _ HD)|]. apply follows_ret.
  - change (-1 =? 84) with false. cbv iota. eapply follows_ok; [apply follows_peek|]. apply follows_throw.
Qed.
Lemma follows_shape v o : dbg v = false -> follows (p_shape v) o (f_shape o).
Proof.
  intros HD. unfold p_shape.
  assert (f_shape o = obind (Ok (tt, f_char o)) (fun x => obind (Ok (f_tok 41 (snd x))) (fun y => obind (Ok (tt, f_char (snd y))) (fun z =>
    let* l := parse_shape (fst y) in Ok (l, snd z))))) as ->.
  { unfold f_shape. cbn [obind snd fst]. destruct (f_tok 41 (f_char o)). reflexivity. }
  apply follows_bind; [now apply follows_char|]. intros [] o1 _.
  apply follows_bind; [apply follows_tok; [exact HD|lia]|]. intros t o2 _.
  apply follows_bind; [now apply follows_char|]. intros [] o3 _. apply follows_lift.
Qed.
Lemma follows_descr c o : follows (p_descr c) o (let* x := f_code c in Ok (x, o)).
Proof.
  unfold p_descr, f_code. destruct c as [|c0 t]; [intros p Hp Hm; cbn; auto|].
  destruct (match t with c1 :: _ => c1 =? 85 | [] => false end).
  - assert (forall x : outcome Z, (let* y := (let* n := x in Ok (UNICODE_STRING, if c0 =? 62 then BIG else LITTLE, u64 n)) in Ok (y, o)) =
      obind (let* y := x in Ok (y, o)) (fun z => Ok ((UNICODE_STRING, if c0 =? 62 then BIG else LITTLE, u64 (fst z)), snd z))) as E
      by (intros [x|e| |u]; reflexivity).
    rewrite E. apply follows_bind; [apply follows_lift|]. intros n o' HE. apply follows_ret.
  - intros p Hp Hm. pose proof (Hm (c0 :: t)) as HQ. pose proof (map_ok_step (c0 :: t) _ Hm) as HS.
    destruct (from_dtype (c0 :: t) (p_map p)) as [[d e] m]. cbn [fst snd] in *. rewrite <- HQ. cbn [obind fst snd p_map]. auto.
Qed.
Lemma follows_entry v h o : dbg v = false -> follows (p_entry v h) o (let* x := f_entry o h in let '(h', _, o') := x in Ok (h', o')).
Proof.
  intros HD. unfold p_entry.
  set (val := fun (key : bytes) (o2 : option bytes) =>
    (if beq key (str "descr") then
       let (c, o3) := f_string o2 in
       let* y := f_code c in
       let '(d, e, n) := y in Ok (mk_header (Some d) (Some e) (h_fortran h) (h_shape h) (Some n), FDescr c, o3)
     else if beq key (str "fortran_order") then
       let* y := f_bool o2 in Ok (mk_header (h_dtype h) (h_endian h) (Some (fst y)) (h_shape h) (h_maxlen h), FOrder (fst y), snd y)
     else if beq key (str "shape") then
       let* y := f_shape o2 in Ok (mk_header (h_dtype h) (h_endian h) (h_fortran h) (fst y) (h_maxlen h), FShape (fst y), snd y)
     else Throw RuntimeError)).
  assert ((let* x := f_entry o h in let '(h', _, o') := x in Ok (h', o')) =
    obind (Ok (tt, f_ws o)) (fun x1 => obind (Ok (f_string (snd x1))) (fun x2 => obind (Ok (tt, f_ws (snd x2))) (fun x3 =>
    obind (Ok (tt, f_char (snd x3))) (fun x4 => obind (Ok (tt, f_ws (snd x4))) (fun x5 =>
    obind (let* y := val (fst x2) (snd x5) in let '(h', _, o') := y in Ok (h', o')) (fun x6 =>
    obind (Ok (tt, f_char (snd x6))) (fun x7 => obind (Ok (tt, f_ws (snd x7))) (fun x8 => Ok (fst x6, snd x8)))))))))) as ->.
  { cbn [obind snd fst]. unfold f_entry. destruct (f_string (f_ws o)) as [key o1]. fold (val key (f_ws (f_char (f_ws o1)))). cbn [fst snd].
    destruct (val key _) as [[[h' f] o']|e| |u]; reflexivity. }
  apply follows_bind; [apply follows_ws|]. intros [] o1 _. cbn [snd].
  apply follows_bind; [now apply follows_string|]. intros key o2 _. cbn [snd fst].
  apply follows_bind; [apply follows_ws|]. intros [] o3 _. cbn [snd].
  apply follows_bind; [now apply follows_char|]. intros [] o4 _. cbn [snd].
  apply follows_bind; [apply follows_ws|]. intros [] o5 _. cbn [snd].
  apply follows_bind.
  - unfold val. destruct (beq key (str "descr")).
    + destruct (f_string o5) as [c o6] eqn:ES. eapply follows_ok; [rewrite <- ES; apply (follows_string v o5 HD)|].
      apply (follows_eq _ _ (obind (let* z := f_code c in Ok (z, o6)) (fun y => let '((d, e, n), o7) := y in
          Ok (mk_header (Some d) (Some e) (h_fortran h) (h_shape h) (Some n), o7)))).
      * apply follows_bind; [apply follows_descr|]. intros [[d e] n] o7 _. apply follows_ret.
      * destruct (f_code c) as [[[d e] n]|e| |u]; reflexivity.
    + destruct (beq key (str "fortran_order")).
      * apply (follows_eq _ _ (obind (f_bool o5) (fun x => Ok (mk_header (h_dtype h) (h_endian h) (Some (fst x)) (h_shape h) (h_maxlen h), snd x)))).
        -- apply follows_bind; [apply (follows_bool v o5 HD)|]. intros b o6 HE. apply follows_ret.
        -- destruct (f_bool o5) as [[b o6]|e| |u]; reflexivity.
      * destruct (beq key (str "shape")).
        -- apply (follows_eq _ _ (obind (f_shape o5) (fun x => Ok (mk_header (h_dtype h) (h_endian h) (h_fortran h) (fst x) (h_maxlen h), snd x)))).
           ++ apply follows_bind; [apply (follows_shape v o5 HD)|]. intros b o6 HE. apply follows_ret.
           ++ destruct (f_shape o5) as [[b o6]|e| |u]; reflexivity.
        -- apply follows_throw.
  - intros h' o6 _. cbn [snd fst].
    apply follows_bind; [now apply follows_char|]. intros [] o7 _. cbn [snd].
    apply follows_bind; [apply follows_ws|]. intros [] o8 _. apply follows_ret.
Qed.
Lemma follows_entries v n : dbg v = false -> forall h o p, at_ p o -> map_ok (p_map p) ->
  map_ok (p_map (snd (p_entries v n h p))) /\ fst (p_entries v n h p) = f_entries n o h.
Proof.
  intros HD. induction n as [|n IH]; intros h o p Hp Hm; [cbn; auto|].
  remember (p_entries v (S n) h p) as res eqn:ER. cbn [p_entries] in ER. unfold bind at 1 in ER.
  destruct (follows_peek o p Hp Hm) as [M1 [F1 A1]]. destruct (p_peek p) as [out p1]. cbn [fst snd] in *. subst out.
  destruct ((match o with Some (c :: _) => c | _ => -1 end) =? 125) eqn:E.
  - assert (exists r, o = Some (125 :: r)) as [r ->].
    { destruct o as [[|c r]|]; [discriminate|apply Z.eqb_eq in E; subst c; eauto|discriminate]. }
    unfold bind in ER. destruct (follows_char v 125 (Some (125 :: r)) HD p1 A1 M1) as [M2 [F2 _]].
    destruct (p_char v 125 p1) as [out2 p2]. cbn [fst snd] in *. subst out2. subst res. cbn. auto.
  - assert (f_entries (S n) o h = (let* x := f_entry (match o with Some [] => None | _ => o end) h in let '(h', _, o') := x in f_entries n o' h')) as EF.
    { cbn [f_entries]. destruct o as [[|c r]|]; try reflexivity.
      destruct (Z.eq_dec c 125) as [->|HN]; [discriminate|].
      destruct c as [|c|c]; try reflexivity. do 7 (destruct c as [c|c|]; try reflexivity). contradiction. }
    rewrite EF. clear EF.
    set (o1 := match o with Some [] => None | _ => o end) in *.
    pose proof (follows_entry v h o1 HD p1 A1 M1) as [M2 F2]. unfold bind in ER.
    destruct (p_entry v h p1) as [out2 p2]. cbn [fst snd] in *.
    destruct (f_entry o1 h) as [[[h' f] o']|e| |u]; cbn [obind] in *.
    + destruct F2 as [-> A2]. subst res. apply IH; assumption.
    + subst out2 res. cbn. auto.
    + subst out2 res. cbn. auto.
    + subst out2 res. cbn. auto.
Qed.
Lemma parse_text v d g : dbg v = false -> map_ok (snd g) ->
  fst (parse_dictionary v d g) = f_entries (S (length d)) (f_char (Some d)) header_uninit.
Proof.
  intros HD Hm. unfold parse_dictionary. set (p := mk_pst (open_str d) (fst g) (snd g)).
  assert (at_ p (Some d)) as Hp by (split; reflexivity). unfold bind.
  destruct (follows_char v 123 (Some d) HD p Hp Hm) as [M1 [F1 A1]]. destruct (p_char v 123 p) as [out p1]. cbn [fst snd] in *. subst out.
  destruct (follows_entries v (S (length d)) HD header_uninit _ p1 A1 M1) as [_ E].
  destruct (p_entries v (S (length d)) header_uninit p1). exact E.
Qed.
