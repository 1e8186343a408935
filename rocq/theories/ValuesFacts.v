(** Lemmas about Dtype.v and Values.v. *)
From Coq Require Import String ZArith List Bool Lia.
From Verif Require Import Base Stream BaseFacts Dtype Values Spec.
Import ListNotations.
Open Scope Z_scope.

Lemma le_bytes_digits k : forall x, 0 <= x -> le_bytes k x = digits256 k x.
Proof.
  induction k as [|k IH]; intros x Hx; [reflexivity|].
  cbn [le_bytes]. rewrite IH by (apply Z.div_pos; lia). unfold digits256.
  cbn [seq map]. f_equal.
  - change (256 ^ Z.of_nat 0) with 1. now rewrite Z.div_1_r.
  - rewrite <- seq_shift, map_map. apply map_ext. intros i.
    rewrite Nat2Z.inj_succ, Z.pow_succ_r by lia.
    rewrite Z.div_div by lia. reflexivity.
Qed.
Lemma le_bytes_length k x : length (le_bytes k x) = k.
Proof. revert x. induction k; intros; cbn; auto. Qed.
Lemma le_bytes_ok k x : bytes_ok (le_bytes k x).
Proof.
  revert x. induction k; intros; cbn; constructor; [|apply IHk]. unfold is_byte.
  pose proof (Z.mod_pos_bound x 256 ltac:(lia)). lia.
Qed.
Lemma le_value_bytes k : forall x, fits k x -> le_value (le_bytes k x) = x.
Proof.
  unfold fits. induction k as [|k IH]; intros x Hx.
  - cbn in *. lia.
  - cbn [le_bytes le_value]. rewrite Nat2Z.inj_succ, Z.pow_succ_r in Hx by lia.
    rewrite IH.
    + pose proof (Z.div_mod x 256 ltac:(lia)). lia.
    + split; [apply Z.div_pos; lia | apply Z.div_lt_upper_bound; lia].
Qed.

Lemma le_bytes_value l : bytes_ok l -> le_bytes (length l) (le_value l) = l.
Proof.
  induction 1 as [|b l Hb Hl IH]; [reflexivity|].
  cbn [length le_bytes le_value]. unfold is_byte in Hb.
  replace ((b + 256 * le_value l) mod 256) with b.
  2:{ rewrite (Z.mul_comm 256), Z.mod_add by lia. symmetry. apply Z.mod_small. lia. }
  replace ((b + 256 * le_value l) / 256) with (le_value l).
  2:{ rewrite (Z.mul_comm 256), Z.div_add by lia. rewrite Z.div_small by lia. lia. }
  now rewrite IH.
Qed.
Lemma le_value_nonneg l : bytes_ok l -> 0 <= le_value l.
Proof. induction 1; cbn [le_value]; [lia|]. unfold is_byte in *. lia. Qed.

Lemma image_length v k x : length (image v k x) = k.
Proof. unfold image. destruct (host_big v); rewrite ?rev_length; apply le_bytes_length. Qed.
Lemma image_ok v k x : bytes_ok (image v k x).
Proof.
  unfold image. destruct (host_big v); [apply Forall_rev|]; apply le_bytes_ok.
Qed.
Lemma of_image_image v k x : fits k x -> of_image v (image v k x) = x.
Proof.
  intros. unfold of_image, image. destruct (host_big v); rewrite ?rev_involutive; now apply le_value_bytes.
Qed.
Lemma image_ordered v k x : 0 <= x -> image v k x = ordered (host_big v) k x.
Proof. intros. unfold image, ordered. now rewrite le_bytes_digits. Qed.

Lemma item_size_width d : is_string d = false ->
  Z.to_nat (item_size d) = (if is_complex d then 2 * width d else width d)%nat.
Proof. now destruct d. Qed.
Lemma item_size_half d : is_complex d = true -> Z.to_nat (item_size d / 2) = width d.
Proof. now destruct d. Qed.

Lemma elem_ok_string d e : is_string d = false -> elem_ok d e ->
  (exists x, e = Scalar x /\ is_complex d = false /\ fits (width d) x) \/
  (exists a b, e = Cplx a b /\ is_complex d = true /\ fits (width d) a /\ fits (width d) b).
Proof.
  intros Hs H. destruct e; cbn in H.
  - left. exists v. destruct H as (A & B & C & D). destruct d; try congruence; cbn; auto.
  - right. exists re, im. destruct H as (A & B & C). destruct A as [-> | ->]; cbn; auto.
  - destruct H as [-> _]. discriminate.
Qed.

Lemma elem_image_length v d e : is_string d = false -> elem_ok d e ->
  length (elem_image v d e) = Z.to_nat (item_size d).
Proof.
  intros Hs H. destruct (elem_ok_string _ _ Hs H) as [(x & -> & Hc & _)|(a & b & -> & Hc & _)]; cbn [elem_image].
  - apply image_length.
  - rewrite app_length, !image_length, item_size_half, item_size_width, Hc by auto. lia.
Qed.
Lemma elem_image_ok v d e : bytes_ok (elem_image v d e).
Proof.
  destruct e; cbn; [apply image_ok| apply bytes_ok_app; split; apply image_ok | constructor].
Qed.
Lemma elem_image_inv v d e : is_string d = false -> elem_ok d e ->
  elem_of_image v d (elem_image v d e) = e.
Proof.
  intros Hs H. unfold elem_of_image.
  destruct (elem_ok_string _ _ Hs H) as [(x & -> & Hc & Hf)|(a & b & -> & Hc & Ha & Hb)]; rewrite Hc; cbn [elem_image].
  - f_equal. apply of_image_image. rewrite item_size_width, Hc by auto. exact Hf.
  - assert (item_size d / 2 = len (image v (Z.to_nat (item_size d / 2)) a)) as HL.
    { unfold len. rewrite image_length. destruct d; try discriminate; reflexivity. }
    rewrite ztake_app_exact, zdrop_app_exact by exact HL.
    rewrite !of_image_image; try rewrite item_size_half by auto; auto.
Qed.

Lemma chunks_flat_map A (f : A -> bytes) k es r :
  Forall (fun e => length (f e) = k) es ->
  chunks k (length es) (flat_map f es ++ r) = map f es.
Proof.
  induction 1 as [|e es He Hes IH]; [reflexivity|].
  cbn [length chunks flat_map map]. rewrite <- app_assoc.
  rewrite firstn_app, <- He, firstn_all, Nat.sub_diag, app_nil_r. f_equal.
  rewrite skipn_app, skipn_all, Nat.sub_diag. cbn [skipn app]. rewrite He. exact IH.
Qed.
Lemma len_flat_map A (f : A -> bytes) k es :
  Forall (fun e => length (f e) = k) es -> len (flat_map f es) = len es * Z.of_nat k.
Proof.
  induction 1 as [|e es He Hes IH]; [reflexivity|].
  cbn [flat_map]. lens. rewrite IH. unfold len. rewrite He. lia.
Qed.

Lemma getc_n_app a : forall s r, good s = true -> rest s = a ++ r -> bytes_ok a ->
  getc_n (length a) s = (a, set_rest s r).
Proof.
  induction a as [|c a IH]; intros s r G R Ha; cbn [length getc_n].
  - cbn in R. now rewrite <- R, set_rest_id.
  - inversion Ha as [|? ? Hc Ha']; subst. rewrite (sget_cons s c (a ++ r)) by auto.
    rewrite (IH (set_rest s (a ++ r)) r) by auto.
    unfold is_byte in Hc. destruct (c =? -1) eqn:E; [lia|]. reflexivity.
Qed.

Lemma read_swapped_app A (f : A -> bytes) k es : forall s r,
  good s = true -> rest s = flat_map (fun e => rev (f e)) es ++ r ->
  Forall (fun e => length (f e) = k) es -> Forall (fun e => bytes_ok (f e)) es ->
  read_swapped k (length es) s = (flat_map f es, set_rest s r).
Proof.
  induction es as [|e es IH]; intros s r G R HL HB; cbn [length read_swapped flat_map].
  - cbn in R. now rewrite <- R, set_rest_id.
  - inversion HL; inversion HB; subst. cbn [flat_map] in R. rewrite <- app_assoc in R.
    assert (bytes_ok (rev (f e))) by now apply Forall_rev.
    rewrite <- (rev_length (f e)) at 1. rewrite (getc_n_app (rev (f e)) s _ G R) by auto.
    rewrite (IH (set_rest s _) r); auto. now rewrite rev_involutive.
Qed.

(** Reading back fixed-width values written in memory-image order or reversed. *)
Lemma read_values_images v d e es s r :
  is_string d = false -> values_ok d es -> good s = true ->
  rest s = (if raw_type d || is_native v e then flat_map (elem_image v d) es
            else flat_map (fun x => rev (elem_image v d x)) es) ++ r ->
  read_values v d e 0 (len es) s = (es, set_rest s r).
Proof.
  intros Hs Hok G R. unfold read_values. rewrite Hs.
  assert (Forall (fun e => length (elem_image v d e) = Z.to_nat (item_size d)) es) as HL.
  { eapply Forall_impl; [|exact Hok]. intros. now apply elem_image_length. }
  assert (map (elem_of_image v d) (map (elem_image v d) es) = es) as HM.
  { rewrite map_map. rewrite <- (map_id es) at 2. apply map_ext_in. intros x Hx.
    apply elem_image_inv; auto. eapply Forall_forall in Hok; eauto. }
  assert (Z.to_nat (len es) = length es) as HN by (unfold len; lia).
  assert (0 < item_size d) by (destruct d; reflexivity).
  assert (len (flat_map (elem_image v d) es) = len es * item_size d) as HLen.
  { rewrite (len_flat_map _ _ _ _ HL). lia. }
  destruct (raw_type d || is_native v e).
  - rewrite <- HLen. rewrite (sread_app s _ r G R), HN.
    rewrite Z.sub_diag. unfold zrepeat. cbn [Z.to_nat repeat].
    rewrite (chunks_flat_map _ _ _ _ [] HL). now rewrite HM.
  - rewrite HN. rewrite (read_swapped_app _ (elem_image v d) _ es s r); auto.
    2:{ apply Forall_forall. intros. apply elem_image_ok. }
    rewrite <- (app_nil_r (flat_map _ _)), (chunks_flat_map _ _ _ _ [] HL). now rewrite HM.
Qed.

(** ** The written bytes are the standard encoding *)
Lemma is_native_big v e : is_native v e = Bool.eqb (means_big (host_big v) e) (host_big v).
Proof. destruct e; unfold is_native, native_endian; cbn; destruct (host_big v); reflexivity. Qed.

Lemma ordered_rev big k x : rev (ordered big k x) = ordered (negb big) k x.
Proof. destruct big; cbn; now rewrite ?rev_involutive. Qed.

Lemma scalar_image_standard v e d x : is_string d = false -> elem_ok d x -> is_complex d = false ->
  (if raw_type d || is_native v e then elem_image v d x else rev (elem_image v d x))
  = standard (means_big (host_big v) e) d x.
Proof.
  intros Hs H Hc. destruct (elem_ok_string _ _ Hs H) as [(y & -> & _ & Hf)|(a & b & _ & Hc' & _)]; [|congruence].
  cbn [elem_image standard]. rewrite item_size_width, Hc by auto.
  unfold fits in Hf. rewrite image_ordered by lia.
  destruct (raw_type d) eqn:ER.
  - cbn [orb]. assert (width d = 1%nat) as -> by (destruct d; try discriminate; reflexivity).
    unfold ordered, digits256. cbn. destruct (host_big v), (means_big _ e); reflexivity.
  - cbn [orb]. rewrite is_native_big. destruct (means_big (host_big v) e), (host_big v); cbn [Bool.eqb];
      rewrite ?ordered_rev; reflexivity.
Qed.

Lemma complex_image_standard v e d x : is_complex d = true -> elem_ok d x ->
  (if raw_type d || is_native v e then elem_image v d x else rev (elem_image v d x))
  = standard (means_big (host_big v) e) d (if is_native v e then x else swap_parts x).
Proof.
  intros Hc H. assert (is_string d = false) as Hs by (destruct d; try discriminate; reflexivity).
  destruct (elem_ok_string _ _ Hs H) as [(y & -> & Hc' & Hf)|(a & b & -> & _ & Ha & Hb)]; [congruence|].
  assert (raw_type d = false) as -> by (destruct d; try discriminate; reflexivity).
  cbn [orb elem_image]. rewrite item_size_half by auto.
  unfold fits in *. rewrite !image_ordered by lia.
  rewrite is_native_big.
  destruct (means_big (host_big v) e), (host_big v); cbn [Bool.eqb swap_parts standard];
    rewrite ?rev_app_distr, ?ordered_rev; reflexivity.
Qed.

Lemma flat_map_ext_in {A B} (f g : A -> list B) l :
  (forall x, In x l -> f x = g x) -> flat_map f l = flat_map g l.
Proof.
  induction l; intros H; [reflexivity|]. cbn. rewrite H, IHl; auto; [|now left].
  intros. apply H. now right.
Qed.

Lemma write_values_fixed v d e es : is_string d = false ->
  write_values v d e es =
  flat_map (fun x => if raw_type d || is_native v e then elem_image v d x
                     else rev (elem_image v d x)) es.
Proof.
  intros Hs. unfold write_values. rewrite Hs. destruct (raw_type d || is_native v e); reflexivity.
Qed.

(** ** Wide strings *)
Lemma max_length_acc es : forall m, 
  m <= fold_left (fun m e => match e with WStr cs => if len cs >? m then len cs else m | _ => m end) es m /\
  Forall (fun e => match e with WStr cs => len cs <=
    fold_left (fun m e => match e with WStr cs => if len cs >? m then len cs else m | _ => m end) es m
    | _ => True end) es.
Proof.
  induction es as [|e es IH]; intros m; cbn [fold_left].
  - split; [lia|constructor].
  - set (m' := match e with WStr cs => if len cs >? m then len cs else m | _ => m end).
    destruct (IH m') as [A B].
    assert (m <= m') as Hm. { unfold m'. destruct e; try lia. destruct (len cs >? m) eqn:E; lia. }
    split; [lia|]. constructor; [|exact B].
    destruct e; auto. assert (len cs <= m'); [|lia]. unfold m'. destruct (len cs >? m) eqn:E; lia.
Qed.
Lemma max_length_bound es : Forall (fun e => match e with WStr cs => len cs <= max_length es | _ => True end) es.
Proof. apply max_length_acc. Qed.
Lemma max_length_nonneg es : 0 <= max_length es.
Proof. apply max_length_acc. Qed.

Lemma unit_bytes_length v e c : length (unit_bytes v e c) = 4%nat.
Proof. unfold unit_bytes. destruct (is_native v e); rewrite ?rev_length; apply image_length. Qed.
Lemma unit_bytes_ok v e c : bytes_ok (unit_bytes v e c).
Proof. unfold unit_bytes. destruct (is_native v e); [|apply Forall_rev]; apply image_ok. Qed.
Lemma unit_bytes_order v e c : 0 <= c ->
  unit_bytes v e c = ordered (means_big (host_big v) e) 4 c.
Proof.
  intros. unfold unit_bytes. rewrite image_ordered, is_native_big by auto.
  destruct (means_big (host_big v) e), (host_big v); cbn [Bool.eqb]; rewrite ?ordered_rev; reflexivity.
Qed.
(** Recovering a code unit written as [big]-ordered bytes. *)
Lemma of_image_ordered v e c : fits 4 c ->
  of_image v (if is_native v e then ordered (means_big (host_big v) e) 4 c
              else rev (ordered (means_big (host_big v) e) 4 c)) = c.
Proof.
  intros H. assert (0 <= c) by (unfold fits in H; lia).
  rewrite is_native_big.
  replace (if Bool.eqb (means_big (host_big v) e) (host_big v)
           then ordered (means_big (host_big v) e) 4 c
           else rev (ordered (means_big (host_big v) e) 4 c)) with (ordered (host_big v) 4 c).
  - rewrite <- image_ordered by auto. now apply of_image_image.
  - destruct (means_big (host_big v) e), (host_big v); cbn [Bool.eqb]; rewrite ?ordered_rev; reflexivity.
Qed.

Definition nonzero (c : Z) : bool := negb (c =? 0).

Lemma ordered_length big k x : length (ordered big k x) = k.
Proof. unfold ordered, digits256. destruct big; rewrite ?rev_length, map_length, seq_length; reflexivity. Qed.
Lemma ordered_ok big k x : bytes_ok (ordered big k x).
Proof.
  assert (bytes_ok (digits256 k x)).
  { apply Forall_map. apply Forall_forall. intros i _. unfold is_byte.
    pose proof (Z.mod_pos_bound (x / 256 ^ Z.of_nat i) 256 ltac:(lia)). lia. }
  unfold ordered. destruct big; [apply Forall_rev|]; assumption.
Qed.

Lemma read_wstr_units v e cs : forall s r, good s = true ->
  rest s = flat_map (ordered (means_big (host_big v) e) 4) cs ++ r -> Forall (fits 4) cs ->
  read_wstr v e (length cs) s = (filter nonzero cs, set_rest s r).
Proof.
  induction cs as [|c cs IH]; intros s r G R HF; cbn [length read_wstr].
  - cbn in R. now rewrite <- R, set_rest_id.
  - inversion HF; subst. cbn [flat_map] in R. rewrite <- app_assoc in R.
    assert (4%nat = length (ordered (means_big (host_big v) e) 4 c)) as HL by now rewrite ordered_length.
    rewrite HL at 1. rewrite (getc_n_app _ s _ G R) by apply ordered_ok.
    rewrite (IH (set_rest s _) r) by auto.
    rewrite of_image_ordered by auto. cbn [filter]. replace (nonzero c) with (negb (c =? 0)) by reflexivity.
    destruct (c =? 0); reflexivity.
Qed.

Lemma flat_map_zero big n : flat_map (ordered big 4) (repeat 0 n) = repeat 0 (4 * n).
Proof.
  induction n; [reflexivity|]. cbn [repeat flat_map]. rewrite IHn.
  replace (4 * S n)%nat with (S (S (S (S (4 * n))))) by lia. destruct big; reflexivity.
Qed.
Lemma filter_zero n : filter nonzero (repeat 0 n) = [].
Proof. induction n; cbn; auto. Qed.

Lemma write_wstr_order v e m cs : len cs <= m -> Forall (fits 4) cs ->
  write_wstr v e m (WStr cs) =
  flat_map (ordered (means_big (host_big v) e) 4) (cs ++ zrepeat 0 (m - len cs)).
Proof.
  intros Hm HF. cbn [write_wstr]. rewrite flat_map_app. f_equal.
  - apply flat_map_ext_in. intros c Hc. apply unit_bytes_order.
    eapply Forall_forall in HF; eauto. unfold fits in HF. lia.
  - unfold zrepeat. rewrite flat_map_zero. f_equal. lia.
Qed.

Lemma read_wstrs_app v1 v2 e1 e2 m es : forall s r, good s = true ->
  means_big (host_big v2) e2 = means_big (host_big v1) e1 ->
  rest s = flat_map (write_wstr v1 e1 m) es ++ r ->
  values_ok UNICODE_STRING es ->
  Forall (fun e => match e with WStr cs => len cs <= m | _ => True end) es ->
  read_wstrs v2 e2 (Z.to_nat m) (length es) s = (map drop_nuls es, set_rest s r).
Proof.
  induction es as [|x es IH]; intros s r G HE R HV HM; cbn [length read_wstrs].
  - cbn in R. now rewrite <- R, set_rest_id.
  - inversion HV as [|? ? Hx HV']; inversion HM as [|? ? Hm HM']; subst.
    destruct x as [y|a b|cs]; cbn in Hx;
      [destruct Hx as (_ & _ & Hx & _); congruence | destruct Hx as ([Hx|Hx] & _); discriminate |].
    destruct Hx as [_ HF]. cbn [flat_map] in R. rewrite <- app_assoc in R.
    rewrite write_wstr_order in R by auto. rewrite <- HE in R.
    pose proof (len_nonneg _ cs).
    assert (Z.to_nat m = length (cs ++ zrepeat 0 (m - len cs))) as HL.
    { rewrite app_length. unfold zrepeat. rewrite repeat_length. unfold len in *. lia. }
    rewrite HL at 1. rewrite (read_wstr_units v2 e2 _ s _ G R).
    2:{ apply Forall_app. split; [exact HF|]. apply Forall_forall. intros z Hz.
        apply repeat_spec in Hz. subst. unfold fits. lia. }
    rewrite (IH (set_rest s _) r) by auto.
    cbn [map drop_nuls]. rewrite filter_app. unfold zrepeat. rewrite filter_zero, app_nil_r. reflexivity.
Qed.

Lemma drop_nuls_id es : Forall no_nuls es -> map drop_nuls es = es.
Proof.
  intros H. rewrite <- (map_id es) at 2. apply map_ext_in. intros x Hx.
  eapply Forall_forall in H; eauto. clear Hx. destruct x as [| |cs]; cbn in *; auto. f_equal.
  induction H; cbn; [reflexivity|]. destruct (x =? 0) eqn:E; [lia|]. cbn. now rewrite IHForall.
Qed.

(** ** Dtype table *)
Lemma from_dtype_stable k q m :
  fst (from_dtype q (snd (from_dtype k m))) = fst (from_dtype q m).
Proof.
  unfold from_dtype at 2. destruct (dfind m k) eqn:E; [reflexivity|]. cbn [snd].
  unfold from_dtype. cbn [dfind]. destruct (beq q k) eqn:Q.
  - apply beq_eq in Q. subst. now rewrite E.
  - destruct (dfind m q); reflexivity.
Qed.

Lemma numpy_descr_lookup d big : d <> UNICODE_STRING ->
  fst (from_dtype (numpy_descr d big) DTYPE_MAP) = (d, recorded_order d big).
Proof. intros H. destruct d; try congruence; destruct big; vm_compute; reflexivity. Qed.

(** A table that answers like the initial one. *)
Definition map_ok (m : dmap) : Prop := forall q, fst (from_dtype q m) = fst (from_dtype q DTYPE_MAP).
Lemma map_ok_init : map_ok DTYPE_MAP. Proof. intros q. reflexivity. Qed.
Lemma map_ok_step k m : map_ok m -> map_ok (snd (from_dtype k m)).
Proof. intros H q. rewrite from_dtype_stable. apply H. Qed.
