(** Lemmas about Header.v. *)
From Coq Require Import String ZArith List Bool Lia.
From Verif Require Import Base Stream BaseFacts Dtype Values Spec ValuesFacts Header.
Import ListNotations.
Open Scope Z_scope.

(** ** Writing *)
Lemma spell_pos z : 0 <= z -> spell z = dec z.
Proof. intros. unfold spell. destruct (z <? 0) eqn:E; [lia|reflexivity]. Qed.
Lemma dims_text_join sh : shape_ok sh -> dims_text sh = join_comma (map spell sh).
Proof.
  induction 1 as [|d t Hd Ht IH]; [reflexivity|]. cbn [dims_text map join_comma].
  rewrite spell_pos by lia. destruct t; [reflexivity|]. cbn [map] in *. now rewrite IH.
Qed.
Lemma dictionary_python dt f sh : shape_ok sh -> dictionary dt f sh = python_dict dt f sh.
Proof.
  intros H. unfold dictionary, python_dict, dict_text, standard_entries, entry_text.
  cbn [flat_map before_key before_colon after_colon after_comma value key_text value_text].
  unfold tuple_body.
  rewrite <- (dims_text_join sh H).
  replace (match sh with [_] => str "," | _ => [] end) with (if (length sh =? 1)%nat then str "," else [])
    by (destruct sh as [|? [|? ?]]; reflexivity).
  destruct f; cbn [str map list_ascii_of_string app]; rewrite <- ?app_assoc; cbn [app];
    rewrite <- ?app_assoc; cbn [app]; rewrite <- ?app_assoc; cbn [app]; reflexivity.
Qed.

Lemma write_npy_header_shape dt f sh :
  let D := len (dictionary dt f sh) in
  exists pad, 0 <= pad < 64 /\ (10 + (D + pad + 1)) mod 64 = 0 /\
  write_npy_header dt f sh =
    [147; 78; 85; 77; 80; 89; 1; 0; u8 (D + pad + 1); 0]
    ++ dictionary dt f sh ++ zrepeat 32 pad ++ [10].
Proof.
  intros D. unfold write_npy_header. fold D. unfold STATIC_HEADER_LENGTH.
  set (h0 := D + 1 + 10). pose proof (len_nonneg _ (dictionary dt f sh)) as HD. fold D in HD.
  pose proof (Z.div_mod h0 64 ltac:(lia)) as E. pose proof (Z.mod_pos_bound h0 64 ltac:(lia)) as B.
  destruct (h0 mod 64 =? 0) eqn:C.
  - apply Z.eqb_eq in C. exists 0. split; [lia|]. split.
    + replace (10 + (D + 0 + 1)) with h0 by (unfold h0; lia). exact C.
    + rewrite Z.add_0_r. cbn [zrepeat Z.to_nat repeat app]. reflexivity.
  - apply Z.eqb_neq in C. exists ((h0 / 64 + 1) * 64 - 10 - D - 1).
    split; [unfold h0 in *; lia|]. split.
    + replace (10 + (D + ((h0 / 64 + 1) * 64 - 10 - D - 1) + 1)) with ((h0 / 64 + 1) * 64) by lia.
      apply Z.mod_mul. lia.
    + replace (D + ((h0 / 64 + 1) * 64 - 10 - D - 1) + 1) with ((h0 / 64 + 1) * 64 - 10) by lia.
      reflexivity.
Qed.

(** ** Reading: the primitives on well-formed input.
    [at_ s r b m]: the parser over stream [s], about to read [r]. *)
Definition at_ (s : istream) (r b : bytes) (m : dmap) : pst := mk_pst (set_rest s r) b m.

Section Parse.
  Variable v : env.
  Variable s : istream.
  Hypothesis Hgood : good s = true.

  Lemma p_peek_at c r b m : p_peek (at_ s (c :: r) b m) = (Ok c, at_ s (c :: r) b m).
  Proof.
    unfold p_peek, with_in, at_. cbn [p_in].
    now rewrite (speek_cons (set_rest s (c :: r)) c r) by auto.
  Qed.
  Lemma p_char_at c r b m : c <> -1 -> p_char v c (at_ s (c :: r) b m) = (Ok tt, at_ s r b m).
  Proof.
    intros. unfold p_char, bind, p_get, with_in, at_. cbn [p_in p_buf p_map].
    rewrite (sget_cons (set_rest s (c :: r)) c r) by auto.
    rewrite set_rest_set_rest. destruct (dbg v); [|reflexivity].
    destruct (c =? -1) eqn:E; [lia|]. now rewrite Z.eqb_refl.
  Qed.
  Lemma blit_ztake tok b : ztake (len tok) (blit (tok ++ [0]) b) = tok.
  Proof. unfold blit. rewrite <- app_assoc. now apply ztake_app_exact. Qed.
  Lemma p_read_to_at delim tok r b m :
    Forall (fun c => c <> delim) tok -> len tok < 65535 ->
    exists b', p_read_to v delim (at_ s (tok ++ delim :: r) b m) = (Ok tok, at_ s (delim :: r) b' m).
  Proof.
    intros HF HL. unfold p_read_to, bind. destruct tok as [|c tok]; cbn [app].
    - rewrite p_peek_at. rewrite Z.eqb_refl. exists b. reflexivity.
    - rewrite p_peek_at. inversion HF; subst. destruct (c =? delim) eqn:E; [lia|].
      unfold at_ at 1. cbn [p_in p_buf p_map].
      rewrite (sgetbuf_app BUFFER_SIZE delim _ (c :: tok) r); auto;
        [| discriminate].
      rewrite set_rest_set_rest, blit_ztake.
      assert (len (c :: tok) <? BUFFER_SIZE = true) as -> by (unfold BUFFER_SIZE; lia).
      cbn [negb]. rewrite andb_false_r. eexists. reflexivity.
  Qed.
  Lemma p_string_at tok r b m :
    Forall (fun c => c <> 39) tok -> len tok < 65535 ->
    exists b', p_string v (at_ s (39 :: tok ++ 39 :: r) b m) = (Ok tok, at_ s r b' m).
  Proof.
    intros HF HL. unfold p_string. unfold bind at 1. rewrite p_char_at by lia.
    unfold bind at 1. destruct (p_read_to_at 39 tok r b m HF HL) as [b' ->].
    unfold bind. rewrite p_char_at by lia. exists b'. reflexivity.
  Qed.

  Lemma skip_ws_loop_at s0 w c r : good s0 = true -> forall f,
    blank w -> is_space c = false -> c <> -1 -> rest s0 = w ++ c :: r -> (length w < f)%nat ->
    skip_ws_loop f s0 = (Ok tt, set_rest s0 (c :: r)).
  Proof.
    intros G f HB HC Hc. revert s0 G f. induction HB as [|x w Hx HB IH]; intros s0 G f R HF.
    - destruct f; [lia|]. cbn [skip_ws_loop app] in *. rewrite (speek_cons s0 c r G R), HC.
      now rewrite <- R, set_rest_id.
    - destruct f; [lia|]. cbn [skip_ws_loop app length] in *. rewrite (speek_cons _ _ _ G R).
      assert (is_space x = true) as -> by (unfold is_space; lia).
      rewrite (sget_cons _ _ _ G R). rewrite (IH (set_rest s0 (w ++ c :: r)) G f) by (auto; lia).
      reflexivity.
  Qed.
  Lemma p_skip_ws_at w c r b m :
    blank w -> is_space c = false -> c <> -1 ->
    p_skip_ws (at_ s (w ++ c :: r) b m) = (Ok tt, at_ s (c :: r) b m).
  Proof.
    intros HB HC Hc. unfold p_skip_ws, skip_ws, at_. cbn [p_in p_buf p_map].
    rewrite (skip_ws_loop_at (set_rest s (w ++ c :: r)) w c r); auto.
    cbn [rest set_rest]. rewrite app_length. lia.
  Qed.
End Parse.

(** ** Shape text *)
Lemma skip_ws_end s0 : good s0 = true -> rest s0 = [] -> skip_ws s0 = (Ok tt, set_eof s0).
Proof.
  intros G R. unfold skip_ws. rewrite R. cbn [length skip_ws_loop]. unfold speek. rewrite G, R. reflexivity.
Qed.

Lemma sextract_digits s0 d r : good s0 = true -> 0 <= d -> rest s0 = dec d ++ r ->
  match r with [] => True | c :: _ => is_digit c = false end ->
  sextract_u64 s0 =
    (if d >? max64 then None else Some d,
     let s1 := set_rest s0 r in
     let s2 := match r with [] => set_eof s1 | _ => s1 end in
     if d >? max64 then set_fail s2 else s2).
Proof.
  intros G Hd R Hr. unfold sextract_u64. rewrite G, R.
  pose proof (dec_digits d Hd) as HF. pose proof (dec_nonempty d) as HN. pose proof (dec_value d Hd) as HV.
  destruct (dec d) as [|c ds] eqn:E; [congruence|]. cbn [app].
  pose proof (Forall_inv HF) as Hc.
  rewrite drop_spaces_nonspace by now apply digit_not_space.
  unfold digitb in Hc. destruct (c =? 45) eqn:E1; [lia|]. destruct (c =? 43) eqn:E2; [lia|]. cbn [orb].
  rewrite (app_comm_cons ds r c). rewrite span_digits_app by auto.
  rewrite HV. destruct (d >? max64); reflexivity.
Qed.
Lemma sextract_neg s0 d r : good s0 = true -> 0 <= d -> rest s0 = 45 :: dec d ++ r ->
  match r with [] => True | c :: _ => is_digit c = false end ->
  sextract_u64 s0 =
    (if d >? max64 then None else Some (u64 (- d)),
     let s1 := set_rest s0 r in
     let s2 := match r with [] => set_eof s1 | _ => s1 end in
     if d >? max64 then set_fail s2 else s2).
Proof.
  intros G Hd R Hr. unfold sextract_u64. rewrite G, R.
  pose proof (dec_digits d Hd) as HF. pose proof (dec_nonempty d) as HN. pose proof (dec_value d Hd) as HV.
  rewrite drop_spaces_nonspace by reflexivity.
  cbn [Z.eqb Pos.eqb orb]. rewrite span_digits_app by auto.
  rewrite HV. destruct (dec d) as [|c ds] eqn:E; [congruence|].
  destruct (d >? max64); reflexivity.
Qed.
Lemma sextract_bad s0 : good s0 = false -> fst (sextract_u64 s0) = None.
Proof. intros G. unfold sextract_u64. now rewrite G. Qed.

Definition fits64 (z : Z) : bool := Z.abs z <=? max64.
(** The parsed value of a written integer. *)
Fixpoint take_fitting (l : list Z) : list Z :=
  match l with
  | [] => []
  | z :: t => if fits64 z then u64 z :: take_fitting t else []
  end.

Lemma u64_small z : 0 <= z <= max64 -> u64 z = z.
Proof. intros. unfold u64, max64 in *. apply Z.mod_small. lia. Qed.

Lemma sextract_spell s0 z r : good s0 = true -> rest s0 = spell z ++ r ->
  match r with [] => True | c :: _ => is_digit c = false end ->
  sextract_u64 s0 =
    (if fits64 z then Some (u64 z) else None,
     let s1 := set_rest s0 r in
     let s2 := match r with [] => set_eof s1 | _ => s1 end in
     if fits64 z then s2 else set_fail s2).
Proof.
  intros G R Hr. unfold spell in R. unfold fits64. destruct (z <? 0) eqn:E.
  - rewrite (sextract_neg s0 (- z) r) by (auto; lia). rewrite Z.opp_involutive.
    destruct (Z.abs z <=? max64) eqn:A, (- z >? max64) eqn:B; try lia; reflexivity.
  - rewrite (sextract_digits s0 z r) by (auto; lia).
    destruct (Z.abs z <=? max64) eqn:A, (z >? max64) eqn:B; try lia; try reflexivity.
    rewrite u64_small by lia. reflexivity.
Qed.

Lemma spell_head z : exists c t, spell z = c :: t /\ is_space c = false /\ c <> -1.
Proof.
  unfold spell. destruct (z <? 0) eqn:E; [exists 45; eauto with zarith|].
  pose proof (dec_nonempty z). pose proof (dec_digits z ltac:(lia)) as HF.
  destruct (dec z) as [|c t]; [congruence|]. inversion HF; subst.
  exists c, t. repeat split; [now apply digit_not_space | unfold digitb in *; lia].
Qed.
Lemma spell_len z : 1 <= len (spell z).
Proof. unfold spell. destruct (z <? 0); lens; pose proof (dec_len_pos z); pose proof (len_nonneg _ (dec (-z))); lia. Qed.

Lemma shape_loop_bad f s0 : good s0 = false -> (0 < f)%nat -> shape_loop f s0 = Ok [].
Proof.
  intros G Hf. destruct f; [lia|]. cbn [shape_loop]. pose proof (sextract_bad s0 G) as H.
  destruct (sextract_u64 s0) as [o s1]. cbn in H. now subst o.
Qed.

Lemma good_set_eof s0 : good (set_eof s0) = false. Proof. reflexivity. Qed.
Lemma good_set_fail s0 : good (set_fail s0) = false.
Proof. unfold good. cbn. apply andb_false_r. Qed.

Lemma join_comma_cons x y t : join_comma (x :: y :: t) = x ++ str ", " ++ join_comma (y :: t).
Proof. reflexivity. Qed.

Lemma shape_loop_text l : forall f s0 tail, good s0 = true ->
  rest s0 = join_comma (map spell l) ++ tail -> (tail = [] \/ tail = [44]) -> (length l < f)%nat ->
  shape_loop f s0 = Ok (take_fitting l).
Proof.
  induction l as [|z l IH]; intros f s0 tail G R HT HF; (destruct f; [lia|]); cbn [shape_loop].
  - cbn in R. unfold sextract_u64. rewrite G, R. destruct HT as [-> | ->]; reflexivity.
  - cbn [length] in HF. destruct l as [|z2 l].
    + cbn [map join_comma] in R. rewrite (sextract_spell s0 z tail G R).
      2:{ destruct HT as [-> | ->]; [exact I|reflexivity]. }
      cbn [take_fitting]. destruct (fits64 z); [|reflexivity].
      destruct HT as [-> | ->].
      * unfold speek. rewrite good_set_eof. cbn [Z.eqb obind].
        change (-1 =? 44) with false. cbv iota. cbn [obind].
        rewrite shape_loop_bad by (try reflexivity; lia). reflexivity.
      * cbv iota zeta. rewrite (speek_cons _ 44 []) by auto. rewrite Z.eqb_refl.
        rewrite (sget_cons _ 44 []) by auto. rewrite skip_ws_end by auto. cbn [obind].
        rewrite shape_loop_bad by (try reflexivity; lia). reflexivity.
    + cbn [map] in R. rewrite join_comma_cons in R. rewrite <- !app_assoc in R.
      change (str ", ") with [44; 32] in R. cbn [app] in R.
      rewrite (sextract_spell s0 z _ G R) by reflexivity.
      cbn [take_fitting]. destruct (fits64 z) eqn:Ez; [|reflexivity].
      set (t := join_comma (map spell (z2 :: l)) ++ tail).
      cbv iota zeta.
      replace (join_comma (spell z2 :: map spell l) ++ tail) with t by reflexivity.
      rewrite (speek_cons _ 44 (32 :: t)) by auto. rewrite Z.eqb_refl.
      rewrite (sget_cons _ 44 (32 :: t)) by auto. rewrite set_rest_set_rest.
      assert (exists c t', t = c :: t' /\ is_space c = false /\ c <> -1) as (c & t' & Ht & Hc & Hc2).
      { destruct (spell_head z2) as (c & u & Hs & Hc & Hc2). exists c.
        unfold t. cbn [map]. destruct l as [|z3 l]; cbn [map join_comma]; rewrite Hs; cbn [app]; eauto. }
      unfold skip_ws. rewrite (skip_ws_loop_at (set_rest s0 (32 :: t)) [32] c t'); auto.
      2:{ repeat constructor. }
      2:{ rewrite rest_set_rest, Ht. reflexivity. }
      2:{ rewrite rest_set_rest. cbn. lia. }
      cbn [obind]. rewrite set_rest_set_rest, <- Ht.
      rewrite (IH f (set_rest s0 t) tail); auto; try (cbn [length] in *; lia).
Qed.

Lemma join_comma_length l : (length l <= length (join_comma (map spell l)))%nat.
Proof.
  induction l as [|z [|z2 l] IH].
  - cbn. lia.
  - cbn [map join_comma length]. pose proof (spell_len z). unfold len in *. lia.
  - cbn [map] in *. rewrite join_comma_cons, !app_length. cbn [length] in *. pose proof (spell_len z). unfold len in *. lia.
Qed.
Lemma parse_shape_text l : parse_shape (tuple_body l) = Ok (take_fitting l).
Proof.
  unfold parse_shape. apply (shape_loop_text l _ _ (if (length l =? 1)%nat then str "," else [])).
  - reflexivity.
  - reflexivity.
  - destruct (length l =? 1)%nat; auto.
  - unfold tuple_body. rewrite app_length. pose proof (join_comma_length l). lia.
Qed.
Lemma take_fitting_ok l : shape_ok l -> take_fitting l = l.
Proof.
  induction 1 as [|z l Hz Hl IH]; [reflexivity|]. cbn [take_fitting].
  assert (fits64 z = true) as -> by (unfold fits64; lia). rewrite u64_small, IH by lia. reflexivity.
Qed.

Lemma take_fitting_dims l : take_fitting l = read_dims l.
Proof.
  induction l as [|z l IH]; [reflexivity|]. cbn [take_fitting read_dims]. rewrite IH.
  assert (fits64 z = (Z.abs z <? 2 ^ 64)) as -> by (unfold fits64, max64; lia). reflexivity.
Qed.
Lemma read_dims_ok l : shape_ok l -> read_dims l = l.
Proof. intros. rewrite <- take_fitting_dims. now apply take_fitting_ok. Qed.
