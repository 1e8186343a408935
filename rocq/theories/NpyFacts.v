(** Reading back written headers. *)
From Coq Require Import String ZArith List Bool Lia.
From Verif Require Import Base Stream BaseFacts Dtype Values Spec ValuesFacts Header HeaderFacts ParseFacts ParserInv ParserRel.
Import ListNotations.
Open Scope Z_scope.

Lemma read_npy_header_v1 v s g lo hi body tail :
  good s = true -> len body = lo + 256 * hi -> len body <= mem v ->
  rest s = [147; 78; 85; 77; 80; 89; 1; 0; lo; hi] ++ body ++ tail ->
  read_npy_header v s g =
    (fst (parse_dictionary v body g), set_rest s tail, snd (parse_dictionary v body g)).
Proof.
  intros G HL HM HR. unfold read_npy_header.
  assert (sread STATIC_HEADER_LENGTH s =
          ([147; 78; 85; 77; 80; 89; 1; 0; lo; hi], set_rest s (body ++ tail))) as ->.
  { apply (sread_app s [147; 78; 85; 77; 80; 89; 1; 0; lo; hi] (body ++ tail) G HR). }
  match goal with |- context [if dbg v then ?c else _] => assert ((if dbg v then c else Ok tt) = Ok tt) as ->
    by (destruct (dbg v); reflexivity) end.
  assert (cells 10 [147; 78; 85; 77; 80; 89; 1; 0; lo; hi] = map Some [147; 78; 85; 77; 80; 89; 1; 0; lo; hi]) as -> by reflexivity.
  cbn [obind and_then cell_is cell map nth Z.eqb Pos.eqb].
  rewrite <- HL. destruct (len body >? mem v) eqn:E; [lia|].
  rewrite (sread_app (set_rest s (body ++ tail)) body tail) by auto.
  rewrite Z.sub_diag. cbn [zrepeat Z.to_nat repeat]. rewrite app_nil_r, set_rest_set_rest.
  destruct (parse_dictionary v body g). reflexivity.
Qed.

Lemma dict_text_app es t1 t2 : dict_text es t1 ++ t2 = dict_text es (t1 ++ t2).
Proof. unfold dict_text. cbn [str map list_ascii_of_string app]. now rewrite <- !app_assoc. Qed.

Lemma standard_layout code f sh : Forall layout_ok (standard_entries code f sh).
Proof. unfold standard_entries. repeat constructor; cbn; unfold blank; repeat constructor; auto. Qed.

Lemma parse_standard v g code d e n f sh tail :
  map_ok (snd g) -> descr_denotes code d e n -> shape_ok sh -> len (tuple_body sh) < 65535 ->
  exists g', parse_dictionary v (python_dict code f sh ++ tail) g
    = (Ok (mk_header (Some d) (Some e) (Some f) sh (Some n)), g').
Proof.
  intros Hm Hd Hs HL. unfold python_dict. rewrite dict_text_app. cbn [app].
  destruct (parse_dictionary_text v (standard_entries code f sh) tail g) as (h & g' & H1 & _ & H2).
  - apply standard_layout.
  - unfold standard_entries. repeat constructor; cbn [value field_ok]; eauto.
  - exact Hm.
  - rewrite H1. exists g'. do 2 f_equal.
    unfold standard_entries in H2. cbn [map value] in H2.
    inversion H2 as [|? d' e' n' ? ? ? Hd' H3| |]; subst.
    destruct (denotes_fun _ _ _ _ _ _ _ Hd Hd') as (<- & <- & <-).
    inversion H3 as [| |? ? ? ? H4|]; subst. inversion H4 as [| | |? ? ? ? H5]; subst.
    inversion H5; subst. cbn [h_dtype h_endian h_fortran h_shape h_maxlen]. now rewrite read_dims_ok.
Qed.

Lemma tuple_in_dict code f sh : len (tuple_body sh) <= len (python_dict code f sh) - 40.
Proof.
  unfold python_dict, dict_text, standard_entries, entry_text.
  cbn [flat_map before_key before_colon after_colon after_comma value key_text value_text].
  pose proof (len_nonneg _ code). destruct f; lens.
  all: repeat match goal with |- context [len (str ?s)] => let x := eval vm_compute in (len (str s)) in
     change (len (str s)) with x end.
  all: lia.
Qed.

Lemma read_header_written v s g code d e n f sh tail :
  map_ok (snd g) -> good s = true -> descr_denotes code d e n -> shape_ok sh ->
  len (python_dict code f sh) <= 245 -> 246 <= mem v ->
  rest s = write_npy_header code f sh ++ tail ->
  exists g', read_npy_header v s g =
    (Ok (mk_header (Some d) (Some e) (Some f) sh (Some n)), set_rest s tail, g') /\
    exists body, g' = snd (parse_dictionary v body g).
Proof.
  intros Hm G Hd Hs HD HM HR.
  destruct (write_npy_header_shape code f sh) as (pad & Hp & Hmod & HW).
  rewrite (dictionary_python _ _ _ Hs) in HW, Hmod.
  set (D := python_dict code f sh) in *. pose proof (len_nonneg _ D) as HD0.
  assert (len D + pad + 1 < 256) as HB.
  { apply Z.mod_divide in Hmod; [|lia]. destruct Hmod as [k Hk]. lia. }
  pose proof (tuple_in_dict code f sh) as HT. fold D in HT.
  destruct (parse_standard v g code d e n f sh (zrepeat 32 pad ++ [10]) Hm Hd Hs ltac:(lia)) as [g' HP].
  fold D in HP.
  exists g'. split; [|exists (D ++ zrepeat 32 pad ++ [10]); now rewrite HP].
  rewrite (read_npy_header_v1 v s g (u8 (len D + pad + 1)) 0 (D ++ zrepeat 32 pad ++ [10]) tail).
  - now rewrite HP.
  - exact G.
  - lens. unfold u8. rewrite Z.mod_small by lia. lia.
  - lens. assert (len D + pad + 1 <= 246); [|lia].
    apply Z.mod_divide in Hmod; [|lia]. destruct Hmod as [k Hk]. lia.
  - rewrite HR, HW. now rewrite <- !app_assoc.
Qed.
