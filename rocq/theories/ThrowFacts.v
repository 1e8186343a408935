(** Facts about the reads of a stream that throws: Throwing.v. *)
From Coq Require Import String ZArith List Bool Lia.
From Verif Require Import Base Stream BaseFacts Dtype Values Header Tensor Npy Throwing.
Import ListNotations.
Open Scope Z_scope.

(** ** Against the plain code *)
Definition sticky {A} (m : mask) (plain : istream -> A * istream) : Prop :=
  forall s, fires m s = true -> fires m (snd (plain s)) = true.
Definition tracks {A} (m : mask) (op : X A) (plain : istream -> A * istream) : Prop :=
  forall s, fires m s = false ->
    match op s with
    | (Some r, s') => plain s = (r, s') /\ fires m s' = false
    | (None, s') => fires m s' = true /\ fires m (snd (plain s)) = true
    end.
Definition pbind {A B} (a : istream -> A * istream) (f : A -> istream -> B * istream) : istream -> B * istream :=
  fun s => let (r, s') := a s in f r s'.
Definition pret {A} (r : A) : istream -> A * istream := fun s => (r, s).

Lemma sticky_ret A m (r : A) : sticky m (pret r).
Proof. intros s H. exact H. Qed.
Lemma sticky_bind A B m (a : istream -> A * istream) (f : A -> istream -> B * istream) :
  sticky m a -> (forall r, sticky m (f r)) -> sticky m (pbind a f).
Proof.
  intros Ha Hf s Hs. unfold pbind. specialize (Ha s Hs). destruct (a s) as [r s']. now apply Hf.
Qed.
Lemma tracks_ret A m (r : A) : tracks m (xret r) (pret r).
Proof. intros s H. cbn. auto. Qed.
Lemma tracks_bind A B m (a : X A) (f : A -> X B) a' f' :
  tracks m a a' -> (forall r, tracks m (f r) (f' r)) -> (forall r, sticky m (f' r)) ->
  tracks m (xbind a f) (pbind a' f').
Proof.
  intros Ha Hf Hst s Hs. unfold xbind, pbind. specialize (Ha s Hs). destruct (a s) as [[r|] s1].
  - destruct Ha as [-> H1]. now apply Hf.
  - destruct Ha as [H1 H2]. split; [exact H1|]. destruct (a' s) as [r s2]. now apply Hst.
Qed.
Lemma fires_fail m s : fires m s = true -> fires m (set_fail s) = true.
Proof. unfold fires, set_fail. cbn. destruct (on_eof m), (on_fail m), (eofb s), (failb s); cbn; auto. Qed.
Lemma fires_eof m s : fires m s = true -> fires m (set_eof s) = true.
Proof. unfold fires, set_eof. cbn. destruct (on_eof m), (on_fail m), (eofb s), (failb s); cbn; auto. Qed.
Lemma sread_sticky m n : sticky m (sread n).
Proof.
  intros s Hs. unfold sread. destruct (good s); [|now apply fires_fail].
  destruct (_ <? n); cbn [snd]; [now apply fires_fail, fires_eof|exact Hs].
Qed.
Lemma sget_sticky m : sticky m sget.
Proof.
  intros s Hs. unfold sget. destruct (good s); [|now apply fires_fail].
  destruct (rest s); cbn [snd]; [now apply fires_fail, fires_eof|exact Hs].
Qed.
Lemma xread_tracks m n : tracks m (xread m n) (sread n).
Proof.
  intros s _. unfold xread. destruct (sread n s) as [b s'] eqn:E. destruct (fires m s') eqn:F; cbn [snd]; auto.
Qed.
Lemma xget_tracks m : tracks m (xget m) sget.
Proof.
  intros s _. unfold xget. destruct (sget s) as [b s'] eqn:E. destruct (fires m s') eqn:F; cbn [snd]; auto.
Qed.

Lemma tracks_ext A m (op : X A) f g : (forall s, f s = g s) -> tracks m op f -> tracks m op g.
Proof. intros E H s Hs. specialize (H s Hs). now rewrite E in H. Qed.
Lemma sticky_ext A m (f g : istream -> A * istream) : (forall s, f s = g s) -> sticky m f -> sticky m g.
Proof. intros E H s Hs. specialize (H s Hs). now rewrite E in H. Qed.

(** The plain loops, as sequences. *)
Lemma getc_n_bind n s : getc_n (S n) s =
  pbind sget (fun c => pbind (getc_n n) (fun r => pret ((if c =? -1 then 255 else c) :: r))) s.
Proof. cbn [getc_n]. unfold pbind, pret. destruct (sget s) as [c s1]. destruct (getc_n n s1). reflexivity. Qed.
Lemma swapped_bind k n s : read_swapped k (S n) s =
  pbind (getc_n k) (fun b => pbind (read_swapped k n) (fun r => pret (rev b ++ r))) s.
Proof. cbn [read_swapped]. unfold pbind, pret. destruct (getc_n k s) as [c s1]. destruct (read_swapped k n s1). reflexivity. Qed.
Lemma wstr_bind v e j s : read_wstr v e (S j) s =
  pbind (getc_n 4) (fun b => pbind (read_wstr v e j) (fun r =>
    pret (let value := of_image v (if is_native v e then b else rev b) in if value =? 0 then r else value :: r))) s.
Proof.
  unfold pbind, pret. cbn [read_wstr]. destruct (getc_n 4 s) as [c s1]. cbv zeta. destruct (read_wstr v e j s1). reflexivity.
Qed.
Lemma wstrs_bind v e j n s : read_wstrs v e j (S n) s =
  pbind (read_wstr v e j) (fun cs => pbind (read_wstrs v e j n) (fun r => pret (WStr cs :: r))) s.
Proof. cbn [read_wstrs]. unfold pbind, pret. destruct (read_wstr v e j s) as [c s1]. destruct (read_wstrs v e j n s1). reflexivity. Qed.

Lemma getc_n_sticky m n : sticky m (getc_n n).
Proof.
  induction n as [|n IH]; [intros s H; exact H|].
  eapply sticky_ext; [intros s; symmetry; apply getc_n_bind|].
  apply sticky_bind; [apply sget_sticky|intros]. apply sticky_bind; [exact IH|intros; apply sticky_ret].
Qed.
Lemma swapped_sticky m k n : sticky m (read_swapped k n).
Proof.
  induction n as [|n IH]; [intros s H; exact H|].
  eapply sticky_ext; [intros s; symmetry; apply swapped_bind|].
  apply sticky_bind; [apply getc_n_sticky|intros]. apply sticky_bind; [exact IH|intros; apply sticky_ret].
Qed.
Lemma wstr_sticky m v e j : sticky m (read_wstr v e j).
Proof.
  induction j as [|n IH]; [intros s H; exact H|].
  eapply sticky_ext; [intros s; symmetry; apply wstr_bind|].
  apply sticky_bind; [apply getc_n_sticky|intros]. apply sticky_bind; [exact IH|intros; apply sticky_ret].
Qed.
Lemma wstrs_sticky m v e j n : sticky m (read_wstrs v e j n).
Proof.
  induction n as [|n IH]; [intros s H; exact H|].
  eapply sticky_ext; [intros s; symmetry; apply wstrs_bind|].
  apply sticky_bind; [apply wstr_sticky|intros]. apply sticky_bind; [exact IH|intros; apply sticky_ret].
Qed.
Lemma getc_n_tracks m n : tracks m (xgetc_n m n) (getc_n n).
Proof.
  induction n as [|n IH]; [apply (tracks_ret _ m (@nil Z))|].
  eapply tracks_ext; [intros s; symmetry; apply getc_n_bind|]. cbn [xgetc_n].
  apply tracks_bind; [apply xget_tracks| |].
  - intros c. apply tracks_bind; [exact IH|intros; apply tracks_ret|intros; apply sticky_ret].
  - intros c. apply sticky_bind; [apply getc_n_sticky|intros; apply sticky_ret].
Qed.
Lemma swapped_tracks m k n : tracks m (xswapped m k n) (read_swapped k n).
Proof.
  induction n as [|n IH]; [apply (tracks_ret _ m (@nil Z))|].
  eapply tracks_ext; [intros s; symmetry; apply swapped_bind|]. cbn [xswapped].
  apply tracks_bind; [apply getc_n_tracks| |].
  - intros c. apply tracks_bind; [exact IH|intros; apply tracks_ret|intros; apply sticky_ret].
  - intros c. apply sticky_bind; [apply swapped_sticky|intros; apply sticky_ret].
Qed.
Lemma wstr_tracks m v e j : tracks m (xwstr m v e j) (read_wstr v e j).
Proof.
  induction j as [|n IH]; [apply (tracks_ret _ m (@nil Z))|].
  eapply tracks_ext; [intros s; symmetry; apply wstr_bind|]. cbn [xwstr].
  apply tracks_bind; [apply getc_n_tracks| |].
  - intros c. cbv zeta. apply tracks_bind; [exact IH|intros; apply tracks_ret|intros; apply sticky_ret].
  - intros c. apply sticky_bind; [apply wstr_sticky|intros; apply sticky_ret].
Qed.
Lemma wstrs_tracks m v e j n : tracks m (xwstrs m v e j n) (read_wstrs v e j n).
Proof.
  induction n as [|n IH]; [apply (tracks_ret _ m (@nil elem))|].
  eapply tracks_ext; [intros s; symmetry; apply wstrs_bind|]. cbn [xwstrs].
  apply tracks_bind; [apply wstr_tracks| |].
  - intros c. apply tracks_bind; [exact IH|intros; apply tracks_ret|intros; apply sticky_ret].
  - intros c. apply sticky_bind; [apply wstrs_sticky|intros; apply sticky_ret].
Qed.
Lemma values_sticky m v d e j n : sticky m (read_values v d e j n).
Proof.
  unfold read_values. destruct (is_string d); [apply wstrs_sticky|]. cbv zeta.
  destruct (raw_type d || is_native v e).
  - intros s Hs. pose proof (sread_sticky m (n * item_size d) s Hs) as H. destruct (sread _ s). exact H.
  - intros s Hs. pose proof (swapped_sticky m (Z.to_nat (item_size d)) (Z.to_nat n) s Hs) as H. destruct (read_swapped _ _ s). exact H.
Qed.
Lemma values_tracks m v d e j n : tracks m (xvalues m v d e j n) (read_values v d e j n).
Proof.
  unfold xvalues, read_values. destruct (is_string d); [apply wstrs_tracks|]. cbv zeta.
  destruct (raw_type d || is_native v e).
  - eapply tracks_ext; [|apply tracks_bind; [apply xread_tracks|intros; apply tracks_ret|intros; apply sticky_ret]].
    intros s. unfold pbind, pret. destruct (sread _ s). reflexivity.
  - eapply tracks_ext; [|apply tracks_bind; [apply swapped_tracks|intros; apply tracks_ret|intros; apply sticky_ret]].
    intros s. unfold pbind, pret. destruct (read_swapped _ _ s). reflexivity.
Qed.
Lemma tensor_load_sticky m v d h : sticky m (tensor_load v d h).
Proof.
  intros s Hs. unfold tensor_load. destruct (obind _ _) as [t| | |]; try exact Hs.
  cbv zeta. destruct (obind _ _) as [[e j]| | |]; try exact Hs.
  pose proof (values_sticky m v d e j (t_size t) s Hs) as H. destruct (read_values _ _ _ _ _ s). exact H.
Qed.
Lemma tensor_load_tracks m v d h : tracks m (tensor_load_x m v d h) (tensor_load v d h).
Proof.
  unfold tensor_load_x, tensor_load. destruct (field (h_fortran h)) as [f|x| |u]; cbn [obind]; try apply tracks_ret.
  destruct (make_tensor v d (h_shape h) f) as [t|x| |u]; cbn [obind]; try apply tracks_ret.
  destruct (field (h_dtype h)) as [d'|x| |u]; cbn [obind]; try apply tracks_ret.
  destruct (dtype_eqb d' d); cbn [obind]; try apply tracks_ret. cbv zeta.
  destruct (if raw_type d then _ else _) as [e|x| |u]; cbn [obind]; try apply tracks_ret.
  destruct (if is_string d then _ else _) as [j|x| |u]; cbn [obind]; try apply tracks_ret.
  eapply tracks_ext; [|apply tracks_bind; [apply values_tracks|intros; apply tracks_ret|intros; apply sticky_ret]].
  intros s. unfold pbind, pret. destruct (read_values _ _ _ _ _ s). reflexivity.
Qed.

(** The header: when the plain code goes wrong on bytes it never got, the other has thrown. *)
Lemma cell_bad l i (P : outcome Z -> Prop) : (forall x, P (Ok x)) -> P (Undef UninitRead) -> P (cell l i).
Proof. intros H1 H2. unfold cell. destruct (nth i l None); auto. Qed.
Definition text_of (v : env) (n : Z) (s : istream) (g : globals) : outcome header_info * istream * globals :=
  if n >? mem v then (Throw AllocError, s, g)
  else
    let (d, s3) := sread n s in
    let buf := d ++ zrepeat 0 (n - len d) in
    let (o, g') := parse_dictionary v buf g in (o, s3, g').
Definition xtext (m : mask) (v : env) (n : Z) : X (outcome bytes) :=
  if n >? mem v then xret (Throw AllocError)
  else xbind (xread m n) (fun d => xret (Ok (d ++ zrepeat 0 (n - len d)))).
Definition parsed (v : env) (g : globals) (a : option (outcome bytes) * istream) : answer header_info * istream * globals :=
  match a with
  | (None, s1) => (Failure, s1, g)
  | (Some (Ok b), s1) => let (o, g') := parse_dictionary v b g in (Answer o, s1, g')
  | (Some (Throw e), s1) => (Answer (Throw e), s1, g)
  | (Some AssertFail, s1) => (Answer AssertFail, s1, g)
  | (Some (Undef u), s1) => (Answer (Undef u), s1, g)
  end.
Definition agrees {A} (m : mask) (x : answer A * istream * globals) (p : outcome A * istream * globals) (g : globals) : Prop :=
  match x with
  | (Answer o, s', g') => fst (fst p) = o /\ snd p = g' /\ (snd (fst p) = s' \/ o = Undef UninitRead) /\ fires m s' = false
  | (Failure, s', g') => fires m s' = true /\ g' = g /\
      (fst (fst p) = Undef UninitRead \/ fires m (snd (fst p)) = true)
  end.
Lemma text_agrees m v n s g : fires m s = false -> agrees m (parsed v g (xtext m v n s)) (text_of v n s g) g.
Proof.
  intros Hs. unfold xtext, text_of, agrees, parsed. destruct (n >? mem v); [cbn; auto|].
  pose proof (xread_tracks m n s Hs) as H2. unfold xbind. destruct (xread m n s) as [[d|] s2].
  - destruct H2 as [-> H2]. cbn [xret]. cbv zeta. unfold xret. destruct (parse_dictionary v (d ++ zrepeat 0 (n - len d)) g). cbn [fst snd]. auto.
  - destruct H2 as [H2 H3]. split; [exact H2|]. split; [reflexivity|]. right. destruct (sread n s) as [d s3]. cbv zeta.
    destruct (parse_dictionary v _ g). exact H3.
Qed.
Lemma text_fires m v n s g : fires m s = true -> fires m (snd (fst (text_of v n s g))) = true.
Proof.
  intros H1. unfold text_of. destruct (n >? mem v); [exact H1|]. pose proof (sread_sticky m n s H1) as H2.
  destruct (sread n s) as [d s3]. cbv zeta. destruct (parse_dictionary v _ g). exact H2.
Qed.
Definition dbg_magic (v : env) (h : list (option Z)) : outcome unit :=
  if dbg v then check_magic h 0 [147; 78; 85; 77; 80; 89] else Ok tt.
Lemma header_cases v s g : read_npy_header v s g =
  let (got, s1) := sread STATIC_HEADER_LENGTH s in
  let h := cells 10 got in
  match dbg_magic v h with
  | Ok _ =>
    match and_then (cell_is h 6 1) (cell_is h 7 0) with
    | Ok true =>
      match (let* a := cell h 8 in let* b := cell h 9 in Ok (a + 256 * b)) with
      | Ok n => text_of v n s1 g
      | Throw e => (Throw e, s1, g) | AssertFail => (AssertFail, s1, g) | Undef u => (Undef u, s1, g)
      end
    | Ok false =>
      match and_then (cell_is h 6 2) (cell_is h 7 0) with
      | Ok true =>
        let (ex, s2) := sread 2 s1 in
        match (let* a := cell h 8 in let* b := cell h 9 in
               let* c := cell (cells 2 ex) 0 in let* d := cell (cells 2 ex) 1 in
               Ok (s32_to_size (a + 256 * b + 65536 * c + 16777216 * d))) with
        | Ok n => text_of v n s2 g
        | Throw e => (Throw e, s1, g) | AssertFail => (AssertFail, s1, g) | Undef u => (Undef u, s1, g)
        end
      | Ok false => text_of v 0 s1 g
      | Throw e => (Throw e, s1, g) | AssertFail => (AssertFail, s1, g) | Undef u => (Undef u, s1, g)
      end
    | Throw e => (Throw e, s1, g) | AssertFail => (AssertFail, s1, g) | Undef u => (Undef u, s1, g)
    end
  | Throw e => (Throw e, s1, g) | AssertFail => (AssertFail, s1, g) | Undef u => (Undef u, s1, g)
  end.
Proof.
  unfold read_npy_header. destruct (sread STATIC_HEADER_LENGTH s) as [got s1]. cbv zeta. fold (dbg_magic v (cells 10 got)).
  destruct (dbg_magic v (cells 10 got)) as [[]|x| |u]; cbn [obind]; auto.
  destruct (and_then (cell_is (cells 10 got) 6 1) (cell_is (cells 10 got) 7 0)) as [[]|x| |u]; cbn [obind]; auto.
  - destruct (cell (cells 10 got) 8) as [a|x| |u]; cbn [obind]; auto.
    destruct (cell (cells 10 got) 9) as [b|x| |u]; cbn [obind]; auto.
  - destruct (and_then (cell_is (cells 10 got) 6 2) (cell_is (cells 10 got) 7 0)) as [[]|x| |u]; cbn [obind]; auto.
    destruct (sread 2 s1) as [ex s2].
    destruct (cell (cells 10 got) 8) as [a|x| |u]; cbn [obind]; auto.
    destruct (cell (cells 10 got) 9) as [b|x| |u]; cbn [obind]; auto.
    destruct (cell (cells 2 ex) 0) as [c|x| |u]; cbn [obind]; auto.
    destruct (cell (cells 2 ex) 1) as [d|x| |u]; cbn [obind]; auto.
Qed.
Lemma dict_cases m v s : xdict m v s =
  match xread m STATIC_HEADER_LENGTH s with
  | (None, s1) => (None, s1)
  | (Some got, s1) =>
    let h := cells 10 got in
    match dbg_magic v h with
    | Ok _ =>
      match and_then (cell_is h 6 1) (cell_is h 7 0) with
      | Ok true =>
        match (let* a := cell h 8 in let* b := cell h 9 in Ok (a + 256 * b)) with
        | Ok n => xtext m v n s1
        | Throw e => (Some (Throw e), s1) | AssertFail => (Some AssertFail, s1) | Undef u => (Some (Undef u), s1)
        end
      | Ok false =>
        match and_then (cell_is h 6 2) (cell_is h 7 0) with
        | Ok true =>
          match xread m 2 s1 with
          | (None, s2) => (None, s2)
          | (Some ex, s2) =>
            match (let* a := cell h 8 in let* b := cell h 9 in
                   let* c := cell (cells 2 ex) 0 in let* d := cell (cells 2 ex) 1 in
                   Ok (s32_to_size (a + 256 * b + 65536 * c + 16777216 * d))) with
            | Ok n => xtext m v n s2
            | Throw e => (Some (Throw e), s2) | AssertFail => (Some AssertFail, s2) | Undef u => (Some (Undef u), s2)
            end
          end
        | Ok false => xtext m v 0 s1
        | Throw e => (Some (Throw e), s1) | AssertFail => (Some AssertFail, s1) | Undef u => (Some (Undef u), s1)
        end
      | Throw e => (Some (Throw e), s1) | AssertFail => (Some AssertFail, s1) | Undef u => (Some (Undef u), s1)
      end
    | Throw e => (Some (Throw e), s1) | AssertFail => (Some AssertFail, s1) | Undef u => (Some (Undef u), s1)
    end
  end.
Proof.
  unfold xdict, xbind at 1. destruct (xread m STATIC_HEADER_LENGTH s) as [[got|] s1]; [|reflexivity]. cbv zeta.
  fold (dbg_magic v (cells 10 got)).
  destruct (dbg_magic v (cells 10 got)) as [[]|x| |u]; cbn [obind]; auto.
  destruct (and_then (cell_is (cells 10 got) 6 1) (cell_is (cells 10 got) 7 0)) as [[]|x| |u]; cbn [obind]; auto.
  - destruct (cell (cells 10 got) 8) as [a|x| |u]; cbn [obind]; auto.
    destruct (cell (cells 10 got) 9) as [b|x| |u]; cbn [obind]; auto.
  - destruct (and_then (cell_is (cells 10 got) 6 2) (cell_is (cells 10 got) 7 0)) as [[]|x| |u]; cbn [obind]; auto.
    unfold xbind at 1. destruct (xread m 2 s1) as [[ex|] s2]; [|reflexivity].
    destruct (cell (cells 10 got) 8) as [a|x| |u]; cbn [obind]; auto.
    destruct (cell (cells 10 got) 9) as [b|x| |u]; cbn [obind]; auto.
    destruct (cell (cells 2 ex) 0) as [c|x| |u]; cbn [obind]; auto.
    destruct (cell (cells 2 ex) 1) as [d|x| |u]; cbn [obind]; auto.
Qed.

Lemma magic_cases v h : dbg_magic v h = Ok tt \/ dbg_magic v h = AssertFail \/ dbg_magic v h = Undef UninitRead.
Proof.
  unfold dbg_magic. destruct (dbg v); [|auto]. generalize [147; 78; 85; 77; 80; 89] 0%nat.
  intros l; induction l as [|c l IH]; intros i; cbn [check_magic]; [auto|].
  unfold cell. destruct (nth i h None); cbn [obind]; [|auto]. destruct (_ =? _); auto.
Qed.
Lemma version_cases h x : (exists b, and_then (cell_is h 6 x) (cell_is h 7 0) = Ok b) \/
  and_then (cell_is h 6 x) (cell_is h 7 0) = Undef UninitRead.
Proof.
  unfold and_then, cell_is, cell. destruct (nth 6 h None); cbn [obind]; [|auto]. destruct (_ =? x); [|eauto].
  destruct (nth 7 h None); cbn [obind]; eauto.
Qed.
Lemma length_cases h : (exists n, (let* a := cell h 8 in let* b := cell h 9 in Ok (a + 256 * b)) = Ok n) \/
  (let* a := cell h 8 in let* b := cell h 9 in Ok (a + 256 * b)) = Undef UninitRead.
Proof.
  unfold cell. destruct (nth 8 h None); cbn [obind]; [|auto]. destruct (nth 9 h None); cbn [obind]; eauto.
Qed.
Lemma long_cases h x : let o := (let* a := cell h 8 in let* b := cell h 9 in
                   let* c := cell x 0 in let* d := cell x 1 in
                   Ok (s32_to_size (a + 256 * b + 65536 * c + 16777216 * d))) in
  (exists n, o = Ok n) \/ o = Undef UninitRead.
Proof.
  cbv zeta. unfold cell. destruct (nth 8 h None); cbn [obind]; [|auto]. destruct (nth 9 h None); cbn [obind]; [|auto].
  destruct (nth 0 x None); cbn [obind]; [|auto]. destruct (nth 1 x None); cbn [obind]; eauto.
Qed.

Lemma header_agrees m v s g : fires m s = false -> agrees m (peek_x m v s g) (read_npy_header v s g) g.
Proof.
  intros Hs. change (peek_x m v s g) with (parsed v g (xdict m v s)). rewrite header_cases, dict_cases.
  pose proof (xread_tracks m STATIC_HEADER_LENGTH s Hs) as H.
  destruct (xread m STATIC_HEADER_LENGTH s) as [[got|] s1].
  2:{ destruct H as [H1 H2]. cbn [parsed agrees]. split; [exact H1|]. split; [reflexivity|].
      destruct (sread STATIC_HEADER_LENGTH s) as [got s2]. cbn [snd] in H2. cbv zeta.
      assert (fires m (snd (sread 2 s2)) = true) as H3 by now apply sread_sticky.
      destruct (magic_cases v (cells 10 got)) as [->|[->| ->]]; [|cbn; auto; fail..].
      destruct (version_cases (cells 10 got) 1) as [[[] ->]| ->]; [| |cbn; auto; fail].
      - destruct (length_cases (cells 10 got)) as [[n ->]| ->]; [|cbn; auto; fail]. right. now apply text_fires.
      - destruct (version_cases (cells 10 got) 2) as [[[] ->]| ->]; [| |cbn; auto; fail].
        + destruct (sread 2 s2) as [ex s3]. cbn [snd] in H3.
          destruct (long_cases (cells 10 got) (cells 2 ex)) as [[n ->]| ->]; [|cbn; auto; fail]. right. now apply text_fires.
        + right. now apply text_fires. }
  destruct H as [-> H1]. cbv zeta.
  destruct (magic_cases v (cells 10 got)) as [->|[->| ->]]; [|cbn; auto; fail..].
  destruct (version_cases (cells 10 got) 1) as [[[] ->]| ->]; [| |cbn; auto; fail].
  - destruct (length_cases (cells 10 got)) as [[n ->]| ->]; [|cbn; auto; fail]. now apply text_agrees.
  - destruct (version_cases (cells 10 got) 2) as [[[] ->]| ->]; [| |cbn; auto; fail].
    + pose proof (xread_tracks m 2 s1 H1) as H2. destruct (xread m 2 s1) as [[ex|] s2].
      * destruct H2 as [-> H2]. destruct (long_cases (cells 10 got) (cells 2 ex)) as [[n ->]| ->]; [|cbn; auto; fail].
        now apply text_agrees.
      * destruct H2 as [H2 H3]. cbn [parsed agrees]. split; [exact H2|]. split; [reflexivity|].
        destruct (sread 2 s1) as [ex s3]. cbn [snd] in H3.
        destruct (long_cases (cells 10 got) (cells 2 ex)) as [[n ->]| ->]; [|cbn; auto; fail].
        right. now apply text_fires.
    + now apply text_agrees.
Qed.

(** load: globals may have changed before the values were read. *)
Definition agrees' {A} (m : mask) (x : answer A * istream * globals) (p : outcome A * istream * globals) : Prop :=
  match x with
  | (Answer o, s', g') => fst (fst p) = o /\ snd p = g' /\ (snd (fst p) = s' \/ o = Undef UninitRead) /\ fires m s' = false
  | (Failure, s', g') => fires m s' = true /\
      (fst (fst p) = Undef UninitRead \/ fires m (snd (fst p)) = true)
  end.
Lemma load_agrees m v d s g : fires m s = false -> agrees' m (load_x m v d s g) (load v d s g).
Proof.
  intros Hs. pose proof (header_agrees m v s g Hs) as H. unfold load_x, load.
  destruct (peek_x m v s g) as [[[|o] s1] g1]; cbn [agrees] in H.
  - destruct H as (H1 & -> & H2). cbn [agrees']. split; [exact H1|].
    destruct (read_npy_header v s g) as [[o s2] g2]. cbn [fst snd] in H2.
    destruct H2 as [-> | H2]; [cbn; auto|].
    destruct o as [h|x| |u]; cbn [fst snd]; auto.
    pose proof (tensor_load_sticky m v d h s2 H2) as H3. destruct (tensor_load v d h s2). cbn [fst snd] in *. auto.
  - destruct (read_npy_header v s g) as [[o2 s2] g2]. cbn [fst snd] in H. destruct H as (-> & -> & [-> | ->] & H1).
    + destruct o as [h|x| |u]; cbn [agrees' fst snd]; auto.
      pose proof (tensor_load_tracks m v d h s1 H1) as H3. destruct (tensor_load_x m v d h s1) as [[o|] s3].
      * destruct H3 as [H3a H3]. rewrite H3a. cbn [fst snd]. repeat split; auto.
      * destruct H3 as [H3 H4]. split; [exact H3|]. destruct (tensor_load v d h s1). auto.
    + cbn [agrees' fst snd]. auto.
Qed.

(** ** What a read takes *)
Definition armed (m : mask) : Prop := on_eof m = true \/ on_fail m = true.
(** [op] takes [p] from the stream, whatever follows, and nothing less will do. *)
Definition exact {A} (op : X A) : Prop :=
  forall s r s', good s = true -> op s = (Some r, s') ->
  exists p, rest s = p ++ rest s' /\ s' = set_rest s (rest s') /\
    (forall s2 q, good s2 = true -> rest s2 = p ++ q -> op s2 = (Some r, set_rest s2 q)) /\
    (forall s2 c q, good s2 = true -> p = rest s2 ++ c :: q -> fst (op s2) = None).
(** The same, with what is taken on view. *)
Definition takes {A} (op : X A) (r : A) (p : bytes) : Prop :=
  (forall s2 q, good s2 = true -> rest s2 = p ++ q -> op s2 = (Some r, set_rest s2 q)) /\
  (forall s2 c q, good s2 = true -> p = rest s2 ++ c :: q -> fst (op s2) = None).

Lemma set_rest_id s : set_rest s (rest s) = s.
Proof. now destruct s. Qed.
Lemma set_rest_twice s a b : set_rest (set_rest s a) b = set_rest s b.
Proof. reflexivity. Qed.
Lemma good_set s r : good (set_rest s r) = good s.
Proof. reflexivity. Qed.

Lemma takes_ret A (r : A) : takes (xret r) r [].
Proof.
  split.
  - intros s2 q _ H. cbn in H. unfold xret. now rewrite <- H, set_rest_id.
  - intros s2 c q _ H. now destruct (rest s2).
Qed.
Lemma app_split (A : Type) (p1 p2 l : list A) c q : p1 ++ p2 = l ++ c :: q ->
  (exists q1, p1 = l ++ c :: q1) \/ (exists t, l = p1 ++ t /\ p2 = t ++ c :: q).
Proof.
  revert l; induction p1 as [|x p1 IH]; intros l H; cbn in H.
  - right. exists l. auto.
  - destruct l as [|y l]; cbn in H.
    + injection H as -> <-. left. exists p1. reflexivity.
    + injection H as -> H. destruct (IH l H) as [[q1 ->]|(t & -> & ->)].
      * left. exists q1. reflexivity.
      * right. exists t. auto.
Qed.
Lemma takes_bind A B (a : X A) (f : A -> X B) r r' p1 p2 :
  takes a r p1 -> takes (f r) r' p2 -> takes (xbind a f) r' (p1 ++ p2).
Proof.
  intros [A1 A2] [B1 B2]. split.
  - intros s2 q Hg Hr. rewrite <- app_assoc in Hr. unfold xbind. rewrite (A1 s2 _ Hg Hr).
    rewrite (B1 (set_rest s2 (p2 ++ q)) q); [reflexivity|now rewrite good_set|reflexivity].
  - intros s2 c q Hg Hp. destruct (app_split _ _ _ _ _ _ Hp) as [[q1 E]|(t & E & Et)]; unfold xbind.
    + specialize (A2 s2 c q1 Hg E). destruct (a s2) as [[?|] ?]; [discriminate|reflexivity].
    + rewrite (A1 s2 t Hg E). apply (B2 _ c q); [now rewrite good_set|exact Et].
Qed.
Lemma exact_takes A (op : X A) : exact op <-> forall s r s', good s = true -> op s = (Some r, s') ->
  exists p, rest s = p ++ rest s' /\ s' = set_rest s (rest s') /\ takes op r p.
Proof. reflexivity. Qed.

Lemma exact_ret A (r : A) : exact (xret r).
Proof.
  apply exact_takes. intros s r' s' _ H. injection H as <- <-. exists []. rewrite set_rest_id.
  repeat split; apply takes_ret.
Qed.
Lemma exact_bind A B (a : X A) (f : A -> X B) :
  exact a -> (forall r, exact (f r)) -> exact (xbind a f).
Proof.
  intros Ha Hf. apply exact_takes. intros s r s' Hg H. unfold xbind in H.
  destruct (a s) as [[r1|] s1] eqn:E; [|discriminate].
  destruct (Ha s r1 s1 Hg E) as (p1 & R1 & S1 & T1).
  assert (good s1 = true) as Hg1 by (rewrite S1; exact Hg).
  destruct (Hf r1 s1 r s' Hg1 H) as (p2 & R2 & S2 & T2).
  exists (p1 ++ p2). split; [rewrite <- app_assoc, <- R2; exact R1|].
  split; [rewrite S2, S1; reflexivity|]. now apply (takes_bind _ _ a f r1).
Qed.
Lemma exact_ext A (f g : X A) : (forall s, f s = g s) -> exact f -> exact g.
Proof.
  intros E H s r s' Hg Hs. rewrite <- E in Hs. destruct (H s r s' Hg Hs) as (p & R & S1 & T1 & T2).
  exists p. repeat split; auto; intros; rewrite <- E; eauto.
Qed.

Lemma fires_fresh m s : good s = true -> fires m s = false.
Proof. unfold good, fires. destruct (on_eof m), (on_fail m), (eofb s), (failb s); cbn; auto; discriminate. Qed.
Lemma fires_ended m s : armed m -> fires m (set_fail (set_eof s)) = true.
Proof. unfold fires. cbn. intros [-> | ->]; cbn; [reflexivity|]. now destruct (on_eof m). Qed.

Lemma xread_exact m n : armed m -> exact (xread m n).
Proof.
  intros Hm. apply exact_takes. intros s r s' Hg H. unfold xread, sread in H. rewrite Hg in H.
  destruct (len (ztake n (rest s)) <? n) eqn:E.
  { rewrite fires_ended in H by exact Hm. discriminate. }
  rewrite fires_fresh in H by exact Hg. injection H as <- <-. apply Z.ltb_ge in E.
  exists (ztake n (rest s)). cbn [rest set_rest]. split; [now rewrite ztake_zdrop|]. split; [reflexivity|].
  pose proof (len_ztake _ n (rest s)) as HL.
  split.
  - intros s2 q Hg2 R2. unfold xread, sread. rewrite Hg2, R2.
    assert (ztake n (ztake n (rest s) ++ q) = ztake n (rest s) /\ zdrop n (ztake n (rest s) ++ q) = q) as [-> ->].
    { destruct (Z_le_gt_dec n 0) as [Hn|Hn].
      - assert (forall (l : bytes), ztake n l = [] /\ zdrop n l = l) as HZ.
        { intros [|x l]; cbn; [auto|]. assert (n <=? 0 = true) as -> by lia. auto. }
        destruct (HZ (rest s)) as [-> _]. apply HZ.
      - assert (n = len (ztake n (rest s))) as HN by lia.
        split; [rewrite ztake_app_exact by exact HN|rewrite zdrop_app_exact by exact HN]; reflexivity. }
    assert (len (ztake n (rest s)) <? n = false) as -> by lia.
    rewrite fires_fresh by exact Hg2. reflexivity.
  - intros s2 c q Hg2 R2. unfold xread, sread. rewrite Hg2.
    assert (len (ztake n (rest s)) = len (rest s2) + 1 + len q) as HL2 by (rewrite R2; unfold len; rewrite app_length; cbn; lia).
    pose proof (len_ztake _ n (rest s2)) as HL3. pose proof (len_nonneg _ q). pose proof (len_nonneg _ (rest s2)).
    assert (len (ztake n (rest s2)) <? n = true) as -> by (apply Z.ltb_lt; lia).
    rewrite fires_ended by exact Hm. reflexivity.
Qed.
Lemma xget_exact m : armed m -> exact (xget m).
Proof.
  intros Hm. apply exact_takes. intros s r s' Hg H. unfold xget, sget in H. rewrite Hg in H.
  destruct (rest s) as [|c l] eqn:R.
  { rewrite fires_ended in H by exact Hm. discriminate. }
  rewrite fires_fresh in H by exact Hg. injection H as <- <-.
  exists [c]. cbn [rest set_rest app]. split; [reflexivity|]. split; [reflexivity|].
  split.
  - intros s2 q Hg2 R2. unfold xget, sget. rewrite Hg2, R2. cbn [app]. rewrite fires_fresh by exact Hg2. reflexivity.
  - intros s2 c' q Hg2 R2. unfold xget, sget. rewrite Hg2. destruct (rest s2) as [|x l'].
    + rewrite fires_ended by exact Hm. reflexivity.
    + cbn in R2. injection R2 as _ R2. now destruct l'.
Qed.
Lemma getc_n_exact m n : armed m -> exact (xgetc_n m n).
Proof.
  intros Hm. induction n as [|n IH]; [apply (exact_ret _ (@nil Z))|]. cbn [xgetc_n].
  apply exact_bind; [now apply xget_exact|intros c]. apply exact_bind; [exact IH|intros; apply exact_ret].
Qed.
Lemma swapped_exact m k n : armed m -> exact (xswapped m k n).
Proof.
  intros Hm. induction n as [|n IH]; [apply (exact_ret _ (@nil Z))|]. cbn [xswapped].
  apply exact_bind; [now apply getc_n_exact|intros c]. apply exact_bind; [exact IH|intros; apply exact_ret].
Qed.
Lemma wstr_exact m v e j : armed m -> exact (xwstr m v e j).
Proof.
  intros Hm. induction j as [|n IH]; [apply (exact_ret _ (@nil Z))|]. cbn [xwstr].
  apply exact_bind; [now apply getc_n_exact|intros c]. cbv zeta. apply exact_bind; [exact IH|intros; apply exact_ret].
Qed.
Lemma wstrs_exact m v e j n : armed m -> exact (xwstrs m v e j n).
Proof.
  intros Hm. induction n as [|n IH]; [apply (exact_ret _ (@nil elem))|]. cbn [xwstrs].
  apply exact_bind; [now apply wstr_exact|intros c]. apply exact_bind; [exact IH|intros; apply exact_ret].
Qed.
Lemma values_exact m v d e j n : armed m -> exact (xvalues m v d e j n).
Proof.
  intros Hm. unfold xvalues. destruct (is_string d); [now apply wstrs_exact|]. cbv zeta.
  destruct (raw_type d || is_native v e).
  - apply exact_bind; [now apply xread_exact|intros; apply exact_ret].
  - apply exact_bind; [now apply swapped_exact|intros; apply exact_ret].
Qed.
Lemma tensor_load_exact m v d h : armed m -> exact (tensor_load_x m v d h).
Proof.
  intros Hm. unfold tensor_load_x. destruct (obind _ _) as [[[t e] j]|x| |u]; try apply exact_ret.
  apply exact_bind; [now apply values_exact|intros; apply exact_ret].
Qed.
Lemma xtext_exact m v n : armed m -> exact (xtext m v n).
Proof.
  intros Hm. unfold xtext. destruct (n >? mem v); [apply exact_ret|].
  apply exact_bind; [now apply xread_exact|intros; apply exact_ret].
Qed.
Lemma dict_exact m v : armed m -> exact (xdict m v).
Proof.
  intros Hm. unfold xdict. apply exact_bind; [now apply xread_exact|intros got]. cbv zeta.
  destruct (obind _ _) as [[v1 v2]|x| |u]; try apply exact_ret.
  destruct v1.
  - destruct (obind _ _) as [n|x| |u]; try apply exact_ret. now apply xtext_exact.
  - destruct v2; [|now apply (xtext_exact m v 0)].
    apply exact_bind; [now apply xread_exact|intros ex].
    destruct (obind _ _) as [n|x| |u]; try apply exact_ret. now apply xtext_exact.
Qed.

(** ** How much the values take *)
(** [op] takes exactly [n] bytes when it succeeds. *)
Definition takes_n {A} (op : X A) (n : Z) : Prop :=
  forall s r s', good s = true -> op s = (Some r, s') -> good s' = true /\ len (rest s) = n + len (rest s').
Lemma takes_n_ret A (r : A) : takes_n (xret r) 0.
Proof. intros s r' s' Hg H. injection H as <- <-. split; [exact Hg|lia]. Qed.
Lemma takes_n_bind A B (a : X A) (f : A -> X B) n k :
  takes_n a n -> (forall r, takes_n (f r) k) -> takes_n (xbind a f) (n + k).
Proof.
  intros Ha Hf s r s' Hg H. unfold xbind in H. destruct (a s) as [[r1|] s1] eqn:E; [|discriminate].
  destruct (Ha _ _ _ Hg E) as [G1 L1]. destruct (Hf _ _ _ _ G1 H) as [G2 L2]. split; [exact G2|lia].
Qed.
Lemma takes_n_eq A (op : X A) n k : n = k -> takes_n op n -> takes_n op k.
Proof. now intros ->. Qed.
Lemma xget_n m : armed m -> takes_n (xget m) 1.
Proof.
  intros Hm s r s' Hg H. unfold xget, sget in H. rewrite Hg in H. destruct (rest s) as [|c l] eqn:R.
  { rewrite fires_ended in H by exact Hm. discriminate. }
  rewrite fires_fresh in H by exact Hg. injection H as <- <-. split; [exact Hg|]. cbn [rest set_rest]. unfold len. cbn [length]. lia.
Qed.
Lemma xread_n m n : armed m -> 0 <= n -> takes_n (xread m n) n.
Proof.
  intros Hm Hn s r s' Hg H. unfold xread, sread in H. rewrite Hg in H.
  destruct (len (ztake n (rest s)) <? n) eqn:E.
  { rewrite fires_ended in H by exact Hm. discriminate. }
  rewrite fires_fresh in H by exact Hg. injection H as <- <-. split; [exact Hg|]. cbn [rest set_rest].
  apply Z.ltb_ge in E. rewrite len_zdrop. rewrite len_ztake in E. pose proof (len_nonneg _ (rest s)). lia.
Qed.
Lemma getc_n_n m n : armed m -> takes_n (xgetc_n m n) (Z.of_nat n).
Proof.
  intros Hm. induction n as [|n IH]; [apply (takes_n_ret _ (@nil Z))|]. cbn [xgetc_n].
  eapply takes_n_eq; [|apply takes_n_bind; [now apply xget_n|intros; apply takes_n_bind; [exact IH|intros; apply takes_n_ret]]]. rewrite Nat2Z.inj_succ. ring.
Qed.
Lemma swapped_n m k n : armed m -> takes_n (xswapped m k n) (Z.of_nat n * Z.of_nat k).
Proof.
  intros Hm. induction n as [|n IH]; [apply (takes_n_ret _ (@nil Z))|]. cbn [xswapped].
  eapply takes_n_eq; [|apply takes_n_bind; [now apply getc_n_n|intros; apply takes_n_bind; [exact IH|intros; apply takes_n_ret]]]. rewrite Nat2Z.inj_succ. ring.
Qed.
Lemma wstr_n m v e j : armed m -> takes_n (xwstr m v e j) (4 * Z.of_nat j).
Proof.
  intros Hm. induction j as [|n IH]; [apply (takes_n_ret _ (@nil Z))|]. cbn [xwstr]. cbv zeta.
  eapply takes_n_eq; [|apply takes_n_bind; [now apply getc_n_n|intros; apply takes_n_bind; [exact IH|intros; apply takes_n_ret]]]. lia.
Qed.
Lemma wstrs_n m v e j n : armed m -> takes_n (xwstrs m v e j n) (Z.of_nat n * (4 * Z.of_nat j)).
Proof.
  intros Hm. induction n as [|n IH]; [apply (takes_n_ret _ (@nil elem))|]. cbn [xwstrs].
  eapply takes_n_eq; [|apply takes_n_bind; [now apply wstr_n|intros; apply takes_n_bind; [exact IH|intros; apply takes_n_ret]]]. rewrite Nat2Z.inj_succ. ring.
Qed.
Lemma item_size_pos d : 0 <= item_size d.
Proof. destruct d; cbn; lia. Qed.
Lemma values_n m v d e j n : armed m -> 0 <= n ->
  takes_n (xvalues m v d e j n) (n * (if is_string d then 4 * Z.max 0 j else item_size d)).
Proof.
  intros Hm Hn. pose proof (item_size_pos d). unfold xvalues. destruct (is_string d).
  { eapply takes_n_eq; [|now apply wstrs_n]. rewrite Z2Nat.id by lia. assert (Z.of_nat (Z.to_nat j) = Z.max 0 j) as -> by lia. reflexivity. }
  cbv zeta. destruct (raw_type d || is_native v e).
  - eapply takes_n_eq; [|apply takes_n_bind; [apply xread_n; [exact Hm|nia]|intros; apply takes_n_ret]]. lia.
  - eapply takes_n_eq; [|apply takes_n_bind; [now apply swapped_n|intros; apply takes_n_ret]].
    rewrite !Z2Nat.id by lia. ring.
Qed.
