(** Properties C01-C08: dtype strings and element encoding. *)
From Coq Require Import String ZArith List Bool Lia.
From Verif Require Import Base Stream BaseFacts Dtype Values Spec ValuesFacts.
Import ListNotations.
Open Scope Z_scope.

(** *** C01 *)
Theorem C01_dtype_strings_round_trip : forall v d e,
  (d = UNICODE_STRING -> to_dtype v d e = Throw InvalidArgument) /\
  (d <> UNICODE_STRING ->
     let big := means_big (host_big v) e in
     to_dtype v d e = Ok (numpy_descr d big) /\
     fst (from_dtype (numpy_descr d big) DTYPE_MAP) = (d, recorded_order d big)).
Proof.
  intros v d e. split.
  - intros ->. reflexivity.
  - intros H. unfold to_dtype, native_endian.
    destruct d; try congruence; destruct e; cbn [endian_eqb means_big]; destruct (host_big v);
      split; vm_compute; reflexivity.
Qed.
Print Assumptions C01_dtype_strings_round_trip.
Example C01_case : to_dtype (mk_env false true 0) COMPLEX128 BIG = Ok (str ">c16").
Proof. reflexivity. Qed.

(** *** C02.  A history is a list of strings passed to from_dtype one after the
    other; the table is carried along. *)
Fixpoint lookups (ks : list bytes) (m : dmap) : dmap :=
  match ks with [] => m | k :: t => lookups t (snd (from_dtype k m)) end.


Lemma dfind_known q :
  dfind DTYPE_MAP q <> None -> exists d big, d <> UNICODE_STRING /\ q = numpy_descr d big.
Proof.
  unfold DTYPE_MAP. cbn [dfind]. intros H.
  repeat (match type of H with (if beq q ?k then _ else _) <> None =>
    let E := fresh "E" in destruct (beq q k) eqn:E;
    [apply beq_eq in E; subst q; clear H;
     match goal with |- exists d big, _ /\ ?k = _ =>
       first
       [ exists INT8, true; split; [discriminate|vm_compute; reflexivity]
       | exists UINT8, true; split; [discriminate|vm_compute; reflexivity]
       | exists BOOL, true; split; [discriminate|vm_compute; reflexivity]
       | exists INT16, true; split; [discriminate|vm_compute; reflexivity]
       | exists INT16, false; split; [discriminate|vm_compute; reflexivity]
       | exists UINT16, true; split; [discriminate|vm_compute; reflexivity]
       | exists UINT16, false; split; [discriminate|vm_compute; reflexivity]
       | exists INT32, true; split; [discriminate|vm_compute; reflexivity]
       | exists INT32, false; split; [discriminate|vm_compute; reflexivity]
       | exists UINT32, true; split; [discriminate|vm_compute; reflexivity]
       | exists UINT32, false; split; [discriminate|vm_compute; reflexivity]
       | exists INT64, true; split; [discriminate|vm_compute; reflexivity]
       | exists INT64, false; split; [discriminate|vm_compute; reflexivity]
       | exists UINT64, true; split; [discriminate|vm_compute; reflexivity]
       | exists UINT64, false; split; [discriminate|vm_compute; reflexivity]
       | exists FLOAT32, true; split; [discriminate|vm_compute; reflexivity]
       | exists FLOAT32, false; split; [discriminate|vm_compute; reflexivity]
       | exists FLOAT64, true; split; [discriminate|vm_compute; reflexivity]
       | exists FLOAT64, false; split; [discriminate|vm_compute; reflexivity]
       | exists COMPLEX64, true; split; [discriminate|vm_compute; reflexivity]
       | exists COMPLEX64, false; split; [discriminate|vm_compute; reflexivity]
       | exists COMPLEX128, true; split; [discriminate|vm_compute; reflexivity]
       | exists COMPLEX128, false; split; [discriminate|vm_compute; reflexivity] ]
     end|] end).
  congruence.
Qed.

Theorem C02_dtype_lookup_history_independent : forall history q,
  let answer := fst (from_dtype q (lookups history DTYPE_MAP)) in
  answer = fst (from_dtype q DTYPE_MAP) /\
  ((forall d big, d <> UNICODE_STRING -> q <> numpy_descr d big) -> answer = (INT8, NATIVE)).
Proof.
  intros history q answer.
  assert (answer = fst (from_dtype q DTYPE_MAP)) as HA.
  { subst answer. generalize DTYPE_MAP. induction history as [|k t IH]; intros m; [reflexivity|].
    cbn [lookups]. rewrite IH. apply from_dtype_stable. }
  split; [exact HA|]. intros Hun. rewrite HA. unfold from_dtype.
  destruct (dfind DTYPE_MAP q) eqn:E; [|reflexivity].
  exfalso. destruct (dfind_known q) as (d & big & Hd & ->); [congruence|].
  now apply (Hun d big).
Qed.
Print Assumptions C02_dtype_lookup_history_independent.
(** A half-precision file is silently taken for INT8, also the second time, although
    the first call changed the table. *)
Example C02_case :
  snd (from_dtype (str "<f2") DTYPE_MAP) <> DTYPE_MAP /\
  fst (from_dtype (str "<f2") (lookups [str "<f2"; str "<f4"] DTYPE_MAP)) = (INT8, NATIVE) /\
  fst (from_dtype (str ">u2") (lookups [str "<f2"] DTYPE_MAP)) = (UINT16, BIG).
Proof. split; [discriminate|split; reflexivity]. Qed.

(** *** C03.  [s] is any stream in a good state positioned at the written bytes. *)
Theorem C03_fixed_width_values_round_trip : forall v d e es s following,
  d <> UNICODE_STRING -> values_ok d es ->
  good s = true -> rest s = write_values v d e es ++ following ->
  exists dt e', to_dtype v d e = Ok dt /\ fst (from_dtype dt DTYPE_MAP) = (d, e') /\
  read_values v d e' 0 (len es) s = (es, set_rest s following).
Proof.
  intros v d e es s r Hd Hok G R.
  assert (is_string d = false) as Hs by (destruct d; try reflexivity; congruence).
  destruct (C01_dtype_strings_round_trip v d e) as [_ H]. destruct (H Hd) as [H1 H2].
  exists (numpy_descr d (means_big (host_big v) e)), (recorded_order d (means_big (host_big v) e)).
  split; [exact H1|]. split; [exact H2|].
  apply read_values_images; auto. rewrite R. unfold write_values. rewrite Hs.
  unfold recorded_order. destruct d; try congruence; cbn [raw_type item_size Z.eqb Pos.eqb orb width Nat.eqb];
    try reflexivity; rewrite !is_native_big; destruct (means_big (host_big v) e), (host_big v); reflexivity.
Qed.
Print Assumptions C03_fixed_width_values_round_trip.
Example C03_case :
  let v := mk_env false false 0 in
  let es := [Cplx 1 0xC0000000; Cplx 0x12345678 7] in
  values_ok COMPLEX64 es /\
  read_values v COMPLEX64 BIG 0 2 (open_str (write_values v COMPLEX64 BIG es ++ [9]))
  = (es, set_rest (open_str (write_values v COMPLEX64 BIG es ++ [9])) [9]).
Proof.
  cbv zeta. split; [|vm_compute; reflexivity].
  repeat constructor; auto; vm_compute; intuition discriminate.
Qed.

(** *** C04 *)
Theorem C04_byte_order_on_disk : forall v d e es,
  d <> UNICODE_STRING -> ~ is_complex_type d -> values_ok d es ->
  write_values v d e es = flat_map (standard (means_big (host_big v) e) d) es /\
  len (write_values v d e es) = len es * Z.of_nat (width d).
Proof.
  intros v d e es Hd Hc Hok.
  assert (is_string d = false) as Hs by (destruct d; try reflexivity; congruence).
  assert (is_complex d = false) as Hc' by (destruct d; try reflexivity; exfalso; apply Hc; unfold is_complex_type; auto).
  assert (write_values v d e es = flat_map (standard (means_big (host_big v) e) d) es) as HW.
  { rewrite write_values_fixed by auto. apply flat_map_ext_in. intros x Hx.
    apply scalar_image_standard; auto. eapply Forall_forall in Hok; eauto. }
  split; [exact HW|]. rewrite HW. apply len_flat_map.
  apply Forall_forall. intros x Hx. eapply Forall_forall in Hok; eauto.
  destruct (elem_ok_string _ _ Hs Hok) as [(y & -> & _)|(a & b & _ & Hc2 & _)]; [|congruence].
  cbn [standard]. apply ordered_length.
Qed.
Print Assumptions C04_byte_order_on_disk.
Example C04_case :
  write_values (mk_env true true 0) INT32 LITTLE [Scalar 0x01020304; Scalar 0xFFFFFFFE]
  = [4; 3; 2; 1; 0xFE; 0xFF; 0xFF; 0xFF].
Proof. reflexivity. Qed.

(** *** C05: [v1] writes, [v2] reads; the endianness used by the reader is the one
    the writer's dtype string records. *)
Theorem C05_files_move_between_hosts : forall v1 v2 d e es s following,
  d <> UNICODE_STRING -> ~ is_complex_type d -> values_ok d es ->
  good s = true -> rest s = write_values v1 d e es ++ following ->
  exists dt e', to_dtype v1 d e = Ok dt /\ fst (from_dtype dt DTYPE_MAP) = (d, e') /\
  read_values v2 d e' 0 (len es) s = (es, set_rest s following).
Proof.
  intros v1 v2 d e es s r Hd Hc Hok G R.
  assert (is_string d = false) as Hs by (destruct d; try reflexivity; congruence).
  assert (is_complex d = false) as Hc' by (destruct d; try reflexivity; exfalso; apply Hc; unfold is_complex_type; auto).
  destruct (C01_dtype_strings_round_trip v1 d e) as [_ H]. destruct (H Hd) as [H1 H2].
  set (big := means_big (host_big v1) e) in *.
  exists (numpy_descr d big), (recorded_order d big).
  split; [exact H1|]. split; [exact H2|].
  apply read_values_images; auto. rewrite R.
  destruct (C04_byte_order_on_disk v1 d e es Hd Hc Hok) as [-> _]. f_equal.
  fold big.
  transitivity (flat_map (fun x => if raw_type d || is_native v2 (recorded_order d big)
                                   then elem_image v2 d x else rev (elem_image v2 d x)) es).
  2:{ destruct (raw_type d || is_native v2 (recorded_order d big)); reflexivity. }
  apply flat_map_ext_in. intros x Hx. eapply Forall_forall in Hok; eauto.
  symmetry. etransitivity; [exact (scalar_image_standard v2 (recorded_order d big) d x Hs Hok Hc')|].
  destruct (width d =? 1)%nat eqn:W.
  - destruct (elem_ok_string _ _ Hs Hok) as [(y & -> & _)|(a & b & _ & Hc2 & _)]; [|congruence].
    cbn [standard]. apply Nat.eqb_eq in W. rewrite W. unfold ordered, digits256. cbn.
    destruct big, (means_big (host_big v2) (recorded_order d _)); reflexivity.
  - f_equal. unfold recorded_order. rewrite W. destruct big; reflexivity.
Qed.
Print Assumptions C05_files_move_between_hosts.
Example C05_case :
  fst (read_values (mk_env true false 0) FLOAT64 LITTLE 0 1
        (open_str (write_values (mk_env false false 0) FLOAT64 NATIVE [Scalar 0x3FF8000000000001])))
  = [Scalar 0x3FF8000000000001].
Proof. reflexivity. Qed.

(** *** C06 *)
Theorem C06_complex_non_native_parts_swapped : forall v d e es,
  is_complex_type d -> values_ok d es ->
  let big := means_big (host_big v) e in
  (* host order: standard encoding *)
  (big = host_big v -> write_values v d e es = flat_map (standard big d) es) /\
  (* other order: standard encoding of the numbers with parts exchanged *)
  (big <> host_big v ->
     write_values v d e es = flat_map (fun x => standard big d (swap_parts x)) es /\
     (* reading a standard file in that order exchanges the parts *)
     forall s following, good s = true ->
       rest s = flat_map (standard big d) es ++ following ->
       read_values v d e 0 (len es) s = (map swap_parts es, set_rest s following)).
Proof.
  intros v d e es Hc Hok big.
  assert (is_complex d = true) as Hc' by (destruct Hc as [-> | ->]; reflexivity).
  assert (is_string d = false) as Hs by (destruct Hc as [-> | ->]; reflexivity).
  assert (HW : write_values v d e es = flat_map (fun x => standard big d (if is_native v e then x else swap_parts x)) es).
  { rewrite write_values_fixed by auto. apply flat_map_ext_in. intros x Hx.
    apply complex_image_standard; auto. eapply Forall_forall in Hok; eauto. }
  rewrite is_native_big in HW. fold big in HW. split.
  - intros HB. rewrite HW, HB, Bool.eqb_reflx. reflexivity.
  - intros HB. assert (Bool.eqb big (host_big v) = false) as HN by (destruct big, (host_big v); try reflexivity; congruence).
    rewrite HN in HW. split; [exact HW|]. intros s r G R.
    assert (HSok : values_ok d (map swap_parts es)).
    { apply Forall_map. eapply Forall_impl; [|exact Hok]. intros x Hx. destruct x; cbn in *; tauto. }
    replace (len es) with (len (map swap_parts es)) by apply len_map.
    apply read_values_images; auto. rewrite R. f_equal.
    transitivity (flat_map (fun x => if raw_type d || is_native v e then elem_image v d x
                                     else rev (elem_image v d x)) (map swap_parts es)).
    2:{ destruct (raw_type d || is_native v e); reflexivity. }
    transitivity (flat_map (fun x => standard big d (swap_parts x)) (map swap_parts es)).
    + clear. induction es as [|x es IH]; [reflexivity|]. cbn [map flat_map]. rewrite <- IH.
      destruct x; reflexivity.
    + apply flat_map_ext_in. intros x Hx. symmetry.
      assert (elem_ok d x) as Hx' by (eapply Forall_forall in HSok; eauto).
      etransitivity; [exact (complex_image_standard v e d x Hc' Hx')|].
      rewrite is_native_big. fold big. now rewrite HN.
Qed.
Print Assumptions C06_complex_non_native_parts_swapped.
(** So numpy's file of 1+2i (as bit patterns) in big-endian order is read on a
    little-endian host as 2+1i, and the library's own big-endian file differs from
    the standard one. *)
Example C06_case :
  let v := mk_env false false 0 in
  fst (read_values v COMPLEX64 BIG 0 1 (open_str (standard true COMPLEX64 (Cplx 1 2)))) = [Cplx 2 1] /\
  write_values v COMPLEX64 BIG [Cplx 1 2] <> standard true COMPLEX64 (Cplx 1 2).
Proof. split; [reflexivity|vm_compute; discriminate]. Qed.

(** *** C07.  [longest es] is what the dtype string of the saved array records (see
    C26); strings are padded with zero code points to that length. *)
Lemma longest_bounds es :
  0 <= longest es /\ Forall (fun e => match e with WStr cs => len cs <= longest es | _ => True end) es.
Proof.
  induction es as [|x es [A B]]; cbn [longest]; [split; [lia|constructor]|].
  assert (longest es <= match x with WStr cs => Z.max (len cs) (longest es) | _ => longest es end) as HL
    by (destruct x; lia).
  split.
  - destruct x; lia.
  - constructor; [destruct x; auto; lia|]. eapply Forall_impl; [|exact B].
    intros y Hy. destruct y; auto. destruct x; lia.
Qed.
Lemma max_length_longest es : max_length es = longest es.
Proof.
  unfold max_length.
  enough (forall m, 0 <= m -> fold_left (fun m e => match e with WStr cs => if len cs >? m then len cs else m | _ => m end) es m
          = Z.max m (longest es)) as H.
  { rewrite H by lia. destruct (longest_bounds es). lia. }
  induction es as [|x es IH]; intros m Hm; cbn [fold_left longest]; [lia|].
  destruct x; try (apply IH; lia).
  rewrite IH; destruct (len cs >? m) eqn:E; pose proof (len_nonneg _ cs); lia.
Qed.

Theorem C07_unicode_arrays_lose_exactly_nuls : forall v1 v2 e es s following,
  values_ok UNICODE_STRING es -> good s = true ->
  rest s = write_values v1 UNICODE_STRING e es ++ following ->
  let e' := if means_big (host_big v1) e then BIG else LITTLE in
  read_values v2 UNICODE_STRING e' (longest es) (len es) s
    = (map drop_nuls es, set_rest s following) /\
  (Forall no_nuls es -> map drop_nuls es = es).
Proof.
  intros v1 v2 e es s r Hok G R e'. split; [|apply drop_nuls_id].
  unfold read_values. cbn [is_string].
  replace (Z.to_nat (len es)) with (length es) by (unfold len; lia).
  rewrite <- max_length_longest.
  apply (read_wstrs_app v1 v2 e e'); auto.
  - subst e'. destruct (means_big (host_big v1) e); reflexivity.
  - apply max_length_bound.
Qed.
Print Assumptions C07_unicode_arrays_lose_exactly_nuls.
Example C07_case :
  let v := mk_env false false 0 in
  let es := [WStr [0x41; 0; 0x1F600]; WStr []; WStr [0x42]] in
  fst (read_values v UNICODE_STRING BIG 3 3 (open_str (write_values v UNICODE_STRING BIG es)))
  = [WStr [0x41; 0x1F600]; WStr []; WStr [0x42]].
Proof. reflexivity. Qed.

(** *** C08 *)
Theorem C08_boolean_conversions : forall x : Z,
  (boolean_ctor x = 0 \/ boolean_ctor x = 1) /\
  (boolean_assign x = 0 \/ boolean_assign x = 1) /\
  (boolean_to_bool (boolean_assign x) = true <-> x <> 0) /\
  (0 <= x -> boolean_ctor x = boolean_assign x) /\
  (x < 0 -> boolean_to_bool (boolean_ctor x) = false /\ boolean_to_bool (boolean_assign x) = true).
Proof.
  intros x. unfold boolean_ctor, boolean_assign, boolean_to_bool.
  destruct (x >? 0) eqn:A, (x =? 0) eqn:B; cbn; repeat split; intros; try lia; auto.
Qed.
Print Assumptions C08_boolean_conversions.
Theorem C08_boolean_from_bool : forall b, boolean_to_bool (boolean_of_bool b) = b.
Proof. now intros []. Qed.
(** An array of booleans read from a file has the file's bytes as values, also those
    that no boolean built in C++ has; each one but 0 is true. *)
Theorem C08_bytes_of_files : forall v e b s r, bytes_ok b -> good s = true -> rest s = b ++ r ->
  exists es, read_values v BOOL e 0 (len b) s = (es, set_rest s r) /\
    Forall2 (fun x el => el = Scalar x /\ (boolean_to_bool x = true <-> x <> 0)) b es.
Proof.
  intros v e b s r HB G R. exists (map Scalar b). split.
  - assert (len (map Scalar b) = len b) as <- by (unfold len; now rewrite map_length). apply read_values_images; auto.
    + apply Forall_forall. intros el Hel. apply in_map_iff in Hel. destruct Hel as (x & <- & Hx).
      pose proof (proj1 (Forall_forall _ _) HB x Hx) as Hb. unfold is_byte in Hb. cbn [elem_ok]. repeat (split; [discriminate|]). exact Hb.
    + rewrite R. f_equal. cbn [raw_type item_size width Z.eqb Pos.eqb orb]. clear R. induction HB as [|x b Hx HB IH]; [reflexivity|]. cbn [map flat_map].
      rewrite <- IH. unfold is_byte in Hx. unfold elem_image, image. change (Z.to_nat (item_size BOOL)) with 1%nat. cbn [le_bytes rev app].
      rewrite Z.mod_small by lia. destruct (host_big v); reflexivity.
  - clear R. induction HB as [|x b Hx HB IH]; constructor; [|apply IH]. split; [reflexivity|]. unfold boolean_to_bool. destruct (Z.eqb_spec x 0); cbn; split; intros; congruence.
Qed.
Print Assumptions C08_bytes_of_files.
Example C08_bytes_case : fst (read_values (mk_env false false 0) BOOL LITTLE 0 3 (open_str [0; 1; 7])) = [Scalar 0; Scalar 1; Scalar 7] /\
  boolean_to_bool 7 = true.
Proof. split; reflexivity. Qed.
Example C08_case : boolean_ctor (-1) = 0 /\ boolean_assign (-1) = 1.
Proof. split; reflexivity. Qed.
