(** Property C77, archives: members are arrays saved in the locale of the writing program and
    loaded in that of the reading one. *)
From Coq Require Import String ZArith List Bool Lia.
From Verif Require Import Base Stream BaseFacts Dtype Values Spec ValuesFacts PropValues Header HeaderFacts
  ParseFacts ParserInv ParserRel NpyFacts Tensor Npy TensorFacts PropTensor SaveFacts PropHeader PropNpy Npz ArchiveFacts PropNpz Locale PropLocale.
Import ListNotations.
Open Scope Z_scope.

(** ** Specification *)
(** Arrays written one after the other, by a program in locale [l]. *)
Fixpoint write_all_in (l : locale) (v : env) (c : codec) (w : writer) (items : list (bytes * tensor)) : outcome writer :=
  match items with
  | [] => Ok w
  | (n, t) :: r => let* w' := w_write_in l v c w n t in write_all_in l v c w' r
  end.
(** Any sequence of reads and peeks, of any names, failing or not, in any locales. *)
Inductive reader_after_in (v : env) (c : codec) (r : reader) : reader -> Prop :=
| afterl_none : reader_after_in v c r r
| afterl_read l r' d n g : reader_after_in v c r r' -> reader_after_in v c r (snd (fst (r_read_in l v c d r' n g)))
| afterl_peek l r' n g : reader_after_in v c r r' -> reader_after_in v c r (snd (fst (r_peek_in l v c r' n g))).
(** The limits of the format: names of 65535 bytes, sizes of 32 bits. *)
Definition storable_in (l : locale) (v : env) (e : endian) (p : bytes * tensor) : Prop :=
  api_tensor (snd p) /\ len (npy_name (fst p)) <= 65535 /\
  forall b, save_in l v (snd p) e = Ok b -> len b < 2 ^ 32.
(** What is asked of the compressor, and of the memory of the reading program: nothing of the
    compressor when members are stored. *)
Definition packed (c : codec) (m : Z) (v2 : env) (b : bytes) : Prop :=
  (m = STORED /\ len b <= mem v2) \/
  (m = DEFLATED /\ exists z, c_deflate c b = Ok z /\ len z < 2 ^ 32 /\ len z <= mem v2 /\ c_inflate c z = Ok b).

(** ** Files as bytes *)
Definition file_in (l : locale) (v : env) (e : endian) (t : tensor) : bytes := match save_in l v t e with Ok b => b | _ => [] end.
Lemma file_in_save l v e t : save_in l v t e = Ok (file_in l v e t).
Proof. unfold file_in. now rewrite save_in_file. Qed.
Definition files_in (l : locale) (v : env) (e : endian) (items : list (bytes * tensor)) : list (bytes * bytes) :=
  map (fun p => (npy_name (fst p), file_in l v e (snd p))) items.
Lemma write_all_in_put l v c items : forall w, w_closed w = false ->
  write_all_in l v c w items = put_all c w (files_in l v (w_endian w) items).
Proof.
  induction items as [|[n t] r IH]; intros w Hw; [reflexivity|]. cbn [write_all_in files_in map put_all fst snd].
  unfold w_write_in. rewrite Hw, file_in_save, archive_name_npy. cbn [obind].
  destruct (w_write_file c w (npy_name n) (file_in l v (w_endian w) t)) as [w'|?| |?] eqn:E; try reflexivity.
  cbn [obind]. apply w_write_file_grows in E as (_ & _ & E1 & E2 & _). rewrite IH by exact E2. now rewrite E1.
Qed.
Lemma resolve_files_in l v e items n : lookup_items (files_in l v e items) n = option_map (file_in l v e) (resolve items n).
Proof.
  unfold lookup_items, resolve, files_in.
  assert (forall k, last_filed (map (fun p => (npy_name (fst p), file_in l v e (snd p))) items) k =
    option_map (file_in l v e) (last_filed (map (fun p => (npy_name (fst p), snd p)) items) k)) as H.
  { intros k. rewrite <- last_filed_map, map_map. reflexivity. }
  rewrite !H. destruct (last_filed _ n); reflexivity.
Qed.
Lemma after_in v c r r' : reader_after_in v c r r' -> reader_after v c r r'.
Proof.
  induction 1 as [|l r' d n g H IH|l r' n g H IH]; [constructor|..].
  - replace (snd (fst (r_read_in l v c d r' n g))) with (snd (fst (r_read v c d r' n g))); [now constructor|].
    unfold r_read, r_read_in. destruct (r_read_file v c r' n) as [[b|?| |?] r2]; try reflexivity.
    destruct (load v d (open_str b) g) as [[? ?] ?], (load_in l v d (open_str b) g) as [[? ?] ?]. reflexivity.
  - replace (snd (fst (r_peek_in l v c r' n g))) with (snd (fst (r_peek v c r' n g))); [now constructor|].
    unfold r_peek, r_peek_in. destruct (r_read_file v c r' n) as [[b|?| |?] r2]; try reflexivity.
    destruct (peek v (open_str b) g) as [[? ?] ?], (read_npy_header_in l v (open_str b) g) as [[? ?] ?]. reflexivity.
Qed.

Lemma joined_ok sep parts : is_byte sep -> Forall part parts -> bytes_ok (joined sep parts).
Proof.
  intros HS. assert (forall p, part p -> bytes_ok p) as HP.
  { intros p [_ H]. eapply Forall_impl; [|exact H]. unfold digitb, is_byte. intros; lia. }
  induction 1 as [|p parts Hp HF IH]; [constructor|]. destruct parts as [|p2 parts]; [now apply HP|].
  change (joined sep (p :: p2 :: parts)) with (p ++ sep :: joined sep (p2 :: parts)).
  apply bytes_ok_app. split; [now apply HP|]. constructor; [exact HS|exact IH].
Qed.
Lemma put_ok l d : is_byte (thousands_sep l) -> 0 <= d -> bytes_ok (put_u64 l d).
Proof.
  intros HS Hd. destruct (use_grouping l) eqn:E; [|rewrite put_plain by exact E; now apply dec_ok].
  assert (groups_digits l) as HG.
  { unfold use_grouping in E. unfold groups_digits. destruct (grouping l); [discriminate|now apply limited_is]. }
  destruct (pieces_exist l d HG Hd) as [ps HP]. destruct (put_parts l d ps HG HP) as (parts & -> & _ & _ & H4 & _).
  now apply joined_ok.
Qed.
Lemma dims_ok l sh : is_byte (thousands_sep l) -> shape_ok sh -> bytes_ok (dims_text_in l sh).
Proof.
  intros HS. induction 1 as [|d sh Hd HF IH]; [constructor|]. destruct sh as [|d2 sh]; [apply put_ok; [exact HS|lia]|].
  change (dims_text_in l (d :: d2 :: sh)) with (put_u64 l d ++ str ", " ++ dims_text_in l (d2 :: sh)).
  apply bytes_ok_app. split; [apply put_ok; [exact HS|lia]|]. apply bytes_ok_app. split; [apply str_ok|exact IH].
Qed.
Lemma file_in_ok l v e t : is_byte (thousands_sep l) -> api_tensor t -> bytes_ok (file_in l v e t).
Proof.
  intros HS Ht. pose proof (api_tensor_wf _ Ht) as (Hs & _). unfold file_in. rewrite save_in_file.
  apply bytes_ok_app. split; [|apply write_values_ok].
  destruct (header_in_shape l (array_descr (t_dtype t) (means_big (host_big v) e) (t_values t)) (t_fortran t) (t_shape t))
    as (pad & H1 & H2 & ->).
  apply bytes_ok_app. split.
  { do 8 (constructor; [unfold is_byte; lia|]). constructor; [unfold u8; apply Z.mod_pos_bound; lia|].
    constructor; [unfold is_byte; lia|constructor]. }
  apply bytes_ok_app. split.
  - unfold dictionary_in. repeat (apply bytes_ok_app; split); try apply str_ok; try apply array_descr_ok.
    + destruct (t_fortran t); apply str_ok.
    + now apply dims_ok.
    + destruct (t_shape t) as [|? [|? ?]]; try constructor; try apply str_ok; try (unfold is_byte; cbn; lia). constructor.
  - apply bytes_ok_app. split; [|constructor; [unfold is_byte; lia|constructor]].
    unfold zrepeat. apply Forall_forall. intros x Hx. apply repeat_spec in Hx. subst. unfold is_byte. lia.
Qed.

(** ** C77 for archives *)
(** Whatever the two locales: a member is the file that save writes in the writer's locale, and
    reading or peeking at it is loading or peeking at that file in the reader's locale. *)
Theorem C77_archive_members : forall w l v1 v2 c m e items w0,
  is_byte (thousands_sep w) -> m = STORED \/ m = DEFLATED -> fresh_writer m e w0 ->
  Forall (storable_in w v1 e) items ->
  (forall n t b, In (n, t) items -> save_in w v1 t e = Ok b -> packed c m v2 b) ->
  exists wr, write_all_in w v1 c w0 items = Ok wr /\
  let a := w_str (w_close wr) in
  (len items <= 65535 -> len a < 2 ^ 32 ->
   (exists r, new_string_reader a = Ok r) /\ (exists r, new_file_reader (Some a) = Ok r) /\
   forall r r' n g, opened a r -> reader_after_in v2 c r r' ->
     match resolve items n with
     | Some t => exists b r'', save_in w v1 t e = Ok b /\ reader_after_in v2 c r r'' /\
         (forall d, let '(o, _, g') := load_in l v2 d (open_str b) g in r_read_in l v2 c d r' n g = (o, r'', g')) /\
         (let '(o, _, g') := read_npy_header_in l v2 (open_str b) g in r_peek_in l v2 c r' n g = (o, r'', g'))
     | None => (forall d, r_read_in l v2 c d r' n g = (Throw InvalidArgument, r', g)) /\
               r_peek_in l v2 c r' n g = (Throw InvalidArgument, r', g)
     end).
Proof.
  intros w l v1 v2 c m e items w0 HB Hm Hw HS HP. apply fresh_new in Hw. subst w0.
  assert (forall n t, In (n, t) items -> packed c m v2 (file_in w v1 e t)) as HPk by (intros n t Hin; apply (HP n t _ Hin), file_in_save).
  rewrite write_all_in_put by reflexivity. cbn [new_writer w_endian].
  destruct (put_all_ok c m (files_in w v1 e items)) with (w := new_writer m e) as (wr & HW); try reflexivity.
  { destruct Hm as [->| ->]; [now left|]. right. split; [reflexivity|]. unfold files_in. apply Forall_forall.
    intros x Hx. apply in_map_iff in Hx as ([n t] & <- & Hp). destruct (HPk n t Hp) as [[E _]|(_ & z & Hz & _)]; [discriminate|].
    exists z. exact Hz. }
  exists wr. split; [exact HW|]. cbv zeta. set (a := w_str (w_close wr)) in *. intros HN HL.
  assert (Forall (item_ok (stub c m)) (files_in w v1 e items)) as HI.
  { unfold files_in. apply Forall_forall. intros x Hx. apply in_map_iff in Hx as ([n t] & <- & Hp).
    eapply Forall_forall in HS; [|exact Hp]. destruct HS as (Ht & Hn & Hb). cbn [fst snd] in *.
    split; [now apply file_in_ok|]. cbn [fst snd]. split; [apply Hb, file_in_save|]. split; [lia|].
    intros cb HC. unfold stub in HC. destruct (m =? STORED) eqn:E; [discriminate|].
    destruct (HPk n t Hp) as [[-> _]|(_ & z & Hz & HLz & _)]; [discriminate|]. congruence. }
  assert (len (files_in w v1 e items) < 65536) as HN'.
  { unfold files_in, len in *. rewrite map_length. apply Z.le_lt_trans with 65535; [exact HN|reflexivity]. }
  rewrite <- (stub_put c m _ (new_writer m e) eq_refl) in HW.
  destruct (write_open (stub c m) m e (files_in w v1 e items) wr (open_str a) HI HN' HW HL eq_refl eq_refl)
    as (r0 & ps & HPs & HA & _).
  assert (forall s, failb s = false -> whole s = a -> exists r, open_reader s = Ok r /\ serving ps r) as HO.
  { intros s F HWs. destruct (open_serving ps s (laid_ok _ _ _ _ _ HPs)) as (r & HR & HSv & _); auto.
    - now rewrite (laid_len _ _ _ _ _ HPs).
    - rewrite <- HA. exact HL.
    - rewrite HWs. exact HA.
    - eauto. }
  split; [destruct (HO (open_str a) eq_refl eq_refl) as (r & HR & _); exists r; exact HR|].
  split; [destruct (HO (open_file a) eq_refl eq_refl) as (r & HR & _); exists r; exact HR|].
  intros r r' n g Hop Haf. apply open_opened in Hop as (s & F & HWs & HR).
  destruct (HO s F HWs) as (r1 & HR1 & HSv). rewrite HR in HR1. injection HR1 as <-.
  destruct (after_serving v2 c m _ ps r r' HPs HSv (after_in _ _ _ _ Haf)) as [HSv' _].
  pose proof (serving_read v2 (stub c m) m _ ps r' n HPs HSv') as H. rewrite resolve_files_in in H.
  rewrite <- (stub_read c m v2 _ ps r' n HPs HSv') in H.
  assert (forall b cb, (exists k, In (k, b) (files_in w v1 e items)) -> stored_as (stub c m) m b cb ->
    len cb <= mem v2 /\ (m = DEFLATED -> c_inflate (stub c m) cb = Ok b)) as HU.
  { intros b cb (k & Hk) HSt. unfold files_in in Hk. apply in_map_iff in Hk as ([k0 t0] & [= _ <-] & Hin). cbn [snd] in HSt |- *.
    specialize (HPk k0 t0 Hin). destruct HSt as [[-> ->]|[-> HD]].
    - split; [|discriminate]. destruct HPk as [[_ Hmem]|[E _]]; [exact Hmem|discriminate].
    - destruct HPk as [[E _]|(_ & z & Hz & _ & Hmem & Hinf)]; [discriminate|].
      change (stub c DEFLATED) with c in *. assert (cb = z) as -> by congruence. auto. }
  specialize (H HU). destruct (resolve items n) as [t|]; cbn [option_map] in H.
  - destruct H as (r'' & H). exists (file_in w v1 e t), r''. split; [apply file_in_save|]. split; [|split].
    + replace r'' with (snd (fst (r_peek_in l v2 c r' n g))); [now constructor|]. unfold r_peek_in. rewrite H.
      now destruct (read_npy_header_in l v2 (open_str (file_in w v1 e t)) g) as [[? ?] ?].
    + intros d. unfold r_read_in. rewrite H. now destruct (load_in l v2 d (open_str (file_in w v1 e t)) g) as [[? ?] ?].
    + unfold r_peek_in. rewrite H. now destruct (read_npy_header_in l v2 (open_str (file_in w v1 e t)) g) as [[? ?] ?].
  - unfold r_read_in, r_peek_in. rewrite H. auto.
Qed.
Print Assumptions C77_archive_members.

(** So arrays of archives come back in a locale whose separator is not the comma ... *)
Theorem C77_archive_round_trip : forall w l v1 v2 c m e items w0, w = l \/ w = classic ->
  groups_digits l -> is_byte (thousands_sep l) ->
  is_digit (thousands_sep l) = false -> thousands_sep l <> 44 -> thousands_sep l <> 41 ->
  m = STORED \/ m = DEFLATED -> fresh_writer m e w0 ->
  Forall (storable_in w v1 e) items ->
  (forall n t b, In (n, t) items -> save_in w v1 t e = Ok b -> packed c m v2 b) ->
  Forall (fun p => fits_in w v1 (snd p) e /\ room v2 (snd p) /\ same_host_if_complex v1 v2 (snd p) /\
                   Forall no_nuls (t_values (snd p))) items ->
  exists wr, write_all_in w v1 c w0 items = Ok wr /\
  let a := w_str (w_close wr) in
  (len items <= 65535 -> len a < 2 ^ 32 ->
   forall r r' n g t, opened a r -> reader_after_in v2 c r r' -> parsed_before g -> resolve items n = Some t ->
     exists r'' g', r_read_in l v2 c (t_dtype t) r' n g = (Ok t, r'', g') /\ reader_after_in v2 c r r'' /\ parsed_before g').
Proof.
  intros w l v1 v2 c m e items w0 Hw HG HB HD H44 H41 Hm Hf HS HP HA.
  assert (is_byte (thousands_sep w)) as HBw by (destruct Hw as [->| ->]; [exact HB|unfold is_byte; cbn; lia]).
  destruct (C77_archive_members w l v1 v2 c m e items w0 HBw Hm Hf HS HP) as (wr & HW & H). exists wr. split; [exact HW|].
  cbv zeta in *. intros HN HL r r' n g t Hop Haf Hg HR. destruct (H HN HL) as (_ & _ & HX). specialize (HX r r' n g Hop Haf).
  rewrite HR in HX. destruct HX as (b & r'' & Hb & Hr'' & HX & _). specialize (HX (t_dtype t)).
  apply resolve_in in HR as (k & Hin). eapply Forall_forall in HA; [|exact Hin]. destruct HA as (A1 & A2 & A3 & A4). cbn [snd] in *.
  eapply Forall_forall in HS; [|exact Hin]. destruct HS as (Ht & _). cbn [snd] in Ht.
  destruct (C77_round_trip_within w l v1 v2 t e Hw HG HD H44 H41 Ht A1 A2 A3 A4) as (file & HF & HL').
  rewrite Hb in HF. injection HF as <-.
  destruct (HL' (open_str b) g [] eq_refl Hg ltac:(now rewrite app_nil_r)) as (g' & HE & Hg'). rewrite HE in HX.
  exists r'', g'. auto.
Qed.
Print Assumptions C77_archive_round_trip.
(** ... and lose their dimensions and all but the first value in one whose separator it is. *)
Theorem C77_archive_comma : forall w l v1 v2 c m e items w0, w = l \/ w = classic ->
  groups_digits l -> thousands_sep l = 44 ->
  m = STORED \/ m = DEFLATED -> fresh_writer m e w0 ->
  Forall (storable_in w v1 e) items ->
  (forall n t b, In (n, t) items -> save_in w v1 t e = Ok b -> packed c m v2 b) ->
  Forall (fun p => fits_in w v1 (snd p) e /\ room v2 (snd p) /\ same_host_if_complex v1 v2 (snd p) /\
                   Forall no_nuls (t_values (snd p))) items ->
  exists wr, write_all_in w v1 c w0 items = Ok wr /\
  let a := w_str (w_close wr) in
  (len items <= 65535 -> len a < 2 ^ 32 ->
   forall r r' n g t, opened a r -> reader_after_in v2 c r r' -> parsed_before g -> resolve items n = Some t ->
     t_shape t <> [] -> 1 <= t_size t ->
     exists t' r'' g', r_read_in l v2 c (t_dtype t) r' n g = (Ok t', r'', g') /\
       t_shape t' = [] /\ t_dtype t' = t_dtype t /\ t_values t' = firstn 1 (t_values t)).
Proof.
  intros w l v1 v2 c m e items w0 Hw HG H44 Hm Hf HS HP HA.
  assert (is_byte (thousands_sep w)) as HBw by (destruct Hw as [->| ->]; [rewrite H44|]; unfold is_byte; cbn; lia).
  destruct (C77_archive_members w l v1 v2 c m e items w0 HBw Hm Hf HS HP) as (wr & HW & H). exists wr. split; [exact HW|].
  cbv zeta in *. intros HN HL r r' n g t Hop Haf Hg HR HS1 HS2. destruct (H HN HL) as (_ & _ & HX). specialize (HX r r' n g Hop Haf).
  rewrite HR in HX. destruct HX as (b & r'' & Hb & Hr'' & HX & _). specialize (HX (t_dtype t)).
  apply resolve_in in HR as (k & Hin). eapply Forall_forall in HA; [|exact Hin]. destruct HA as (A1 & A2 & A3 & A4). cbn [snd] in *.
  eapply Forall_forall in HS; [|exact Hin]. destruct HS as (Ht & _). cbn [snd] in Ht.
  destruct (C77_comma_locale_reads_no_shape w l v1 v2 t e Hw HG H44 Ht HS1 HS2 A1 A2 A3 A4) as (file & HF & HL').
  rewrite Hb in HF. injection HF as <-.
  destruct (HL' (open_str b) g [] eq_refl Hg ltac:(now rewrite app_nil_r)) as (t' & s' & g' & HE & _ & B1 & B2 & B3). rewrite HE in HX.
  exists t', r'', g'. auto.
Qed.
Print Assumptions C77_archive_comma.

(** The row of 2 by 1234 as a member, stored, in a German and in an English program. *)
Definition case_one : list (bytes * tensor) := [(str "row", case_row)].
Example C77_archive_case : forall l, l = german \/ l = english ->
  Forall (storable_in l case_env NATIVE) case_one /\
  (forall n t b, In (n, t) case_one -> save_in l case_env t NATIVE = Ok b -> packed (mk_codec Ok Ok) STORED case_env b) /\
  Forall (fun p => fits_in l case_env (snd p) NATIVE /\ room case_env (snd p) /\ same_host_if_complex case_env case_env (snd p) /\
                   Forall no_nuls (t_values (snd p))) case_one /\
  resolve case_one (str "row.npy") = Some case_row /\ t_shape case_row <> [] /\ 1 <= t_size case_row /\
  exists wr, write_all_in l case_env (mk_codec Ok Ok) (new_writer STORED NATIVE) case_one = Ok wr /\
    len (w_str (w_close wr)) < 2 ^ 32.
Proof.
  intros l Hl. destruct C77_case as (HG & _ & _ & _ & _ & _ & HA & HR & _).
  assert (groups_digits l) as Hgl.
  { destruct Hl as [->| ->]; eapply Forall_forall; try exact HG; cbn; auto. }
  assert (forall b, save_in l case_env case_row NATIVE = Ok b -> len b = 2596) as HL.
  { intros b Hb. destruct Hl as [->| ->]; vm_compute in Hb; injection Hb as <-; vm_compute; reflexivity. }
  split; [|split; [|split; [|split; [reflexivity|split; [discriminate|split; [vm_compute; discriminate|]]]]]].
  - constructor; [|constructor]. split; [exact HA|]. split; [vm_compute; discriminate|]. intros b Hb. cbn [snd] in Hb. rewrite (HL b Hb). reflexivity.
  - intros n t b [[= <- <-]|[]] Hb. left. split; [reflexivity|]. rewrite (HL b Hb). vm_compute. discriminate.
  - constructor; [|constructor]. split; [apply C77_four_dimensions_fit; [exact HA|exact Hgl|cbn; lia|vm_compute; discriminate]|].
    split; [exact HR|]. split; [intros []; discriminate|].
    cbn [snd]. unfold case_row. cbn [t_values]. unfold zrepeat. apply Forall_forall. intros x Hx. apply repeat_spec in Hx. subst x. exact I.
  - destruct Hl as [->| ->]; (eexists; split; [vm_compute; reflexivity|vm_compute; reflexivity]).
Qed.
