(** Property C59: archives of arbitrary bytes. *)
From Coq Require Import String ZArith List Bool Lia Permutation Sorted.
From Verif Require Import Base Stream BaseFacts Dtype Values Spec ValuesFacts PropValues Header HeaderFacts
  ParseFacts ParserInv ParserRel NpyFacts PropHeader Tensor Npy TensorFacts PropTensor SaveFacts PropNpy CutFacts PropCut
  Crc PropCrc Npz NpzFacts ArchiveFacts PropNpz PropZip.
Import ListNotations.
Open Scope Z_scope.

(** ** What the bytes say *)
(** The number stored at [p] in [n] bytes, low byte first. Bytes beyond the end count
    as 255: that is what std::istream::get() amounts to there. *)
Definition byte_at (a : bytes) (i : Z) : Z := match znth a i with Some x => x | None => 255 end.
Fixpoint number_at (a : bytes) (p : Z) (n : nat) : Z :=
  match n with O => 0 | S n' => byte_at a p + 256 * number_at a (p + 1) n' end.
(** Four bytes from [p] on are there, and are these. *)
Definition inside (a : bytes) (p : Z) : bool := p + 4 <=? len a.
Definition signed (a : bytes) (p x : Z) : bool := number_at a p 4 =? x.

(** A record of the directory, at [p]: its name, and where the next one starts, unless
    the record is refused. The name may run past the end, and is filled up with NULs. *)
Definition record_name (a : bytes) (p : Z) : bytes :=
  let n := number_at a (p + 28) 2 in
  let got := ztake n (zdrop (p + 46) a) in got ++ zrepeat 0 (n - len got).
Definition bit (b : bool) : Z := if b then 1 else 0.
Definition next_record (a : bytes) (p : Z) : option Z :=
  let q := p + 46 + number_at a (p + 28) 2 in
  if 45 <? number_at a (p + 6) 2 then None
  else if number_at a (p + 30) 2 =? 0 then Some q
  else if negb (number_at a q 2 =? 1) then None
  else
    let needed := 8 * (bit (number_at a (p + 20) 4 =? 2 ^ 32 - 1) + bit (number_at a (p + 24) 4 =? 2 ^ 32 - 1)
                       + bit (number_at a (p + 42) 4 =? 2 ^ 32 - 1)) in
    if number_at a (q + 2) 2 <? needed then None else Some (q + 4 + number_at a (q + 2) 2).

(** What becomes of opening the archive: its names; refused; or a signature has to be
    compared that is not in the file, or not completely. *)
Inductive fate := Readable (names : list bytes) | Refused | Runs_off.
Fixpoint directory_fate (a : bytes) (n : nat) (p : Z) : fate :=
  match n with
  | O => Readable []
  | S n' =>
      if negb (inside a p) then Runs_off
      else if negb (signed a p 0x02014b50) then Refused
      else match next_record a p with
           | None => Refused
           | Some q => match directory_fate a n' q with
                       | Readable names => Readable (record_name a p :: names)
                       | x => x
                       end
           end
  end.
Definition archive_fate (a : bytes) : fate :=
  if len a <? 22 then Runs_off
  else if negb (signed a (len a - 22) 0x06054b50) then Refused
  else directory_fate a (Z.to_nat (number_at a (len a - 14) 2)) (number_at a (len a - 6) 4).

(** ** The stream against the positions *)
Definition view (a : bytes) (p : Z) (s : istream) : Prop :=
  whole s = a /\ 0 <= p /\ ((good s = true /\ rest s = zdrop p a) \/ (failb s = true /\ len a < p)).
Lemma failb_good s : failb s = true -> good s = false.
Proof. unfold good. intros ->. apply andb_false_r. Qed.
Lemma zdrop_znth (a : bytes) p : 0 <= p -> zdrop p a = match znth a p with Some x => x :: zdrop (p + 1) a | None => [] end.
Proof.
  intros Hp. destruct (znth a p) as [x|] eqn:E.
  - revert p Hp E. induction a as [|y a IH]; intros p Hp E.
    { apply znth_some in E. rewrite len_nil in E. lia. }
    cbn [zdrop]. destruct (p + 1 <=? 0) eqn:E1; [lia|]. destruct (p <=? 0) eqn:E2.
    + assert (p = 0) as -> by lia. cbn in E. injection E as ->. now rewrite zdrop_0 by lia.
    + rewrite (IH (p - 1)) by (try lia; rewrite <- E; symmetry; apply znth_cons; lia). do 2 f_equal. lia.
  - apply zdrop_all. destruct (Z_lt_dec p (len a)) as [H|H]; [|lia].
    destruct (znth_in_range _ a p ltac:(lia)) as [x Hx]. congruence.
Qed.
Lemma sget_view a p s : view a p s ->
  exists s', sget s = (match znth a p with Some x => x | None => -1 end, s') /\ view a (p + 1) s' /\ (good s' = true -> p + 1 <= len a).
Proof.
  intros (W & Hp & [[G R]|[F L]]).
  - unfold sget. rewrite G, R, (zdrop_znth a p Hp). destruct (znth a p) as [x|] eqn:E.
    + eexists. split; [reflexivity|]. pose proof (znth_some _ _ _ _ E). split; [|lia].
      split; [exact W|]. split; [lia|]. left. split; [exact G|reflexivity].
    + eexists. split; [reflexivity|]. split; [|rewrite failb_good by reflexivity; discriminate].
      split; [exact W|]. split; [lia|]. right. split; [reflexivity|].
      destruct (Z_lt_dec p (len a)) as [H|H]; [|lia]. destruct (znth_in_range _ a p ltac:(lia)). congruence.
  - unfold sget. rewrite (failb_good _ F). rewrite znth_out by lia. eexists. split; [reflexivity|].
    split; [|rewrite failb_good by reflexivity; discriminate]. split; [exact W|]. split; [lia|]. right. split; [reflexivity|lia].
Qed.
Lemma byte_at_range a p : bytes_ok a -> 0 <= byte_at a p < 256.
Proof.
  intros H. unfold byte_at. destruct (znth a p) as [x|] eqn:E; [|lia].
  assert (In x a) as HI. { unfold znth in E. destruct (p <? 0); [discriminate|]. eapply nth_error_In; eauto. }
  eapply Forall_forall in H; [|exact HI]. exact H.
Qed.
Lemma number_at_range a n : bytes_ok a -> forall p, 0 <= number_at a p n < 2 ^ (8 * Z.of_nat n).
Proof.
  intros H. induction n as [|n IH]; intros p; cbn [number_at]; [lia|].
  pose proof (byte_at_range a p H). pose proof (IH (p + 1)) as IH'.
  replace (8 * Z.of_nat (S n)) with (8 + 8 * Z.of_nat n) by lia. rewrite Z.pow_add_r by lia. change (2 ^ 8) with 256. lia.
Qed.
Lemma number_at_end a n : forall p, len a <= p -> number_at a p n = 2 ^ (8 * Z.of_nat n) - 1.
Proof.
  induction n as [|n IH]; intros p Hp; cbn [number_at]; [reflexivity|]. rewrite IH by lia.
  unfold byte_at. rewrite znth_out by lia. replace (8 * Z.of_nat (S n)) with (8 + 8 * Z.of_nat n) by lia.
  rewrite Z.pow_add_r by lia. change (2 ^ 8) with 256. lia.
Qed.
(** ones from [sh] to [w] *)
Lemma ones_bits w sh i : 0 <= sh <= w -> 0 <= i -> Z.testbit (Z.shiftl ((-1) mod 2 ^ w) sh mod 2 ^ w) i = ((sh <=? i) && (i <? w)).
Proof.
  intros Hs Hi. destruct (i <? w) eqn:E.
  - rewrite Z.mod_pow2_bits_low by lia. rewrite Z.shiftl_spec by lia. destruct (sh <=? i) eqn:E2; cbn [andb].
    + rewrite Z.mod_pow2_bits_low by lia. apply Z.bits_m1. lia.
    + apply Z.testbit_neg_r. lia.
  - rewrite Z.mod_pow2_bits_high by lia. now rewrite andb_false_r.
Qed.
Lemma ones_value w sh : 0 <= sh <= w -> Z.shiftl ((-1) mod 2 ^ w) sh mod 2 ^ w = 2 ^ sh * (2 ^ (w - sh) - 1).
Proof.
  intros H. apply Z.bits_inj'. intros i Hi. rewrite ones_bits by lia.
  rewrite Z.mul_comm, <- Z.shiftl_mul_pow2 by lia. rewrite Z.shiftl_spec by lia.
  replace (2 ^ (w - sh) - 1) with (Z.ones (w - sh)) by (rewrite Z.ones_equiv; lia).
  destruct (sh <=? i) eqn:E; cbn [andb].
  - destruct (i <? w) eqn:E2; symmetry; [apply Z.ones_spec_low; lia|apply Z.ones_spec_high; lia].
  - symmetry. apply Z.testbit_neg_r. lia.
Qed.
Lemma lor_low acc x sh : 0 <= sh -> 0 <= acc < 2 ^ sh -> Z.lor acc (2 ^ sh * x) = acc + 2 ^ sh * x.
Proof.
  intros Hs Ha. rewrite <- Z.lxor_lor; [symmetry; apply Z.add_nocarry_lxor|]; 
    (apply Z.bits_inj'; intros i Hi; rewrite Z.land_spec, Z.bits_0; destruct (i <? sh) eqn:E;
     [rewrite (Z.mul_comm (2 ^ sh)), Z.mul_pow2_bits_low by lia; apply andb_false_r|
      assert (Z.testbit acc i = false) as -> by (rewrite <- (Z.mod_small acc (2 ^ sh)) by lia; apply Z.mod_pow2_bits_high; lia); reflexivity]).
Qed.
Lemma read_le_view a w n : bytes_ok a -> forall sh acc p s, 0 <= sh -> w = sh + 8 * Z.of_nat n -> view a p s -> 0 <= acc < 2 ^ sh ->
  exists s', read_le w n sh acc s = (acc + 2 ^ sh * number_at a p n, s') /\ view a (p + Z.of_nat n) s' /\ (n <> O \/ (good s = true -> p <= len a) -> good s' = true -> p + Z.of_nat n <= len a).
Proof.
  intros HB. 
  assert (forall n sh acc p s, 0 <= sh -> w = sh + 8 * Z.of_nat n -> view a p s -> len a <= p ->
    (n = O \/ Z.lor acc (Z.shiftl ((-1) mod 2 ^ w) sh mod 2 ^ w) = acc) ->
    exists s', read_le w n sh acc s = (acc, s') /\ view a (p + Z.of_nat n) s' /\ (n <> O \/ (good s = true -> p <= len a) -> good s' = true -> p + Z.of_nat n <= len a)) as HE.
  { induction n0 as [|m IH]; intros sh acc p s Hs Hw V Hp HX; cbn [read_le].
    - exists s. split; [reflexivity|]. split; [now rewrite Z.add_0_r|]. intros [C|C] G; [congruence|specialize (C G); lia].
    - destruct HX as [HX|HX]; [discriminate|]. destruct (sget_view a p s V) as (s1 & -> & V1 & G1). rewrite znth_out by lia. rewrite HX.
      destruct (IH (sh + 8) acc (p + 1) s1) as (s' & -> & V' & G'); try lia; auto.
      { destruct m as [|m]; [now left|right]. apply Z.bits_inj'. intros i Hi.
        apply (f_equal (fun z => Z.testbit z i)) in HX. rewrite Z.lor_spec, ones_bits in * by lia.
        destruct (sh + 8 <=? i) eqn:E1; [|apply orb_false_r]. assert ((sh <=? i) = true) as E2 by lia. rewrite E2 in HX. exact HX. }
      exists s'. split; [reflexivity|]. split; [replace (p + Z.of_nat (S m)) with (p + 1 + Z.of_nat m) by lia; exact V'|].
      intros _ G. specialize (G' (or_intror G1) G). lia. }
  induction n as [|n IH]; intros sh acc p s Hs Hw V Ha; cbn [read_le].
  - exists s. split; [f_equal; cbn [number_at]; lia|]. split; [now rewrite Z.add_0_r|]. intros [C|C] G; [congruence|specialize (C G); lia].
  - destruct (sget_view a p s V) as (s1 & E1 & V1 & G1). rewrite E1. cbn [number_at]. unfold byte_at.
    destruct (znth a p) as [x|] eqn:E.
    + assert (0 <= x < 256) as Hx by (pose proof (byte_at_range a p HB) as H; unfold byte_at in H; now rewrite E in H).
      assert (256 <= 2 ^ w) as Hw8 by (change 256 with (2 ^ 8); apply Z.pow_le_mono_r; lia).
      rewrite (Z.mod_small x) by lia. rewrite Z.shiftl_mul_pow2 by lia.
      assert (x * 2 ^ sh < 2 ^ (sh + 8)) as Hlt by (rewrite Z.pow_add_r by lia; change (2 ^ 8) with 256; nia).
      assert (2 ^ (sh + 8) <= 2 ^ w) as Hle by (apply Z.pow_le_mono_r; lia).
      rewrite (Z.mod_small (x * 2 ^ sh)) by nia. rewrite (Z.mul_comm x), lor_low by lia.
      destruct (IH (sh + 8) (acc + 2 ^ sh * x) (p + 1) s1) as (s' & -> & V' & G'); try lia; auto.
      { rewrite Z.pow_add_r by lia. change (2 ^ 8) with 256. nia. }
      exists s'. split; [f_equal; rewrite Z.pow_add_r by lia; change (2 ^ 8) with 256; lia|].
      split; [replace (p + Z.of_nat (S n)) with (p + 1 + Z.of_nat n) by lia; exact V'|].
      intros _ G. specialize (G' (or_intror G1) G). lia.
    + assert (len a <= p) as Hp.
      { destruct (Z_lt_dec p (len a)) as [H|H]; [|lia]. destruct V as (_ & V & _). destruct (znth_in_range _ a p ltac:(lia)). congruence. }
      rewrite number_at_end by lia. rewrite ones_value by lia. rewrite lor_low by lia.
      replace (w - sh) with (8 + 8 * Z.of_nat n) by lia. rewrite Z.pow_add_r by lia. change (2 ^ 8) with 256.
      replace (255 + 256 * (2 ^ (8 * Z.of_nat n) - 1)) with (256 * 2 ^ (8 * Z.of_nat n) - 1) by lia.
      destruct (HE n (sh + 8) (acc + 2 ^ sh * (256 * 2 ^ (8 * Z.of_nat n) - 1)) (p + 1) s1) as (s' & -> & V' & G'); try lia; auto.
      { destruct n as [|n]; [now left|right]. set (k := Z.of_nat (S n)) in *.
        rewrite <- lor_low by lia. rewrite <- Z.lor_assoc. f_equal.
        replace (2 ^ sh * (256 * 2 ^ (8 * k) - 1)) with (Z.shiftl ((-1) mod 2 ^ w) sh mod 2 ^ w).
        2:{ rewrite ones_value by lia. f_equal. replace (w - sh) with (8 + 8 * k) by lia. rewrite Z.pow_add_r by lia. reflexivity. }
        apply Z.bits_inj'. intros i Hi. rewrite Z.lor_spec, !ones_bits by lia.
        destruct (sh + 8 <=? i) eqn:Ei; [|apply orb_false_r]. assert ((sh <=? i) = true) as -> by lia. now destruct (i <? w). }
      exists s'. split; [reflexivity|]. split; [replace (p + Z.of_nat (S n)) with (p + 1 + Z.of_nat n) by lia; exact V'|].
      intros _ G. specialize (G' (or_intror G1) G). lia.
Qed.

Definition viewb (a : bytes) (p : Z) (s : istream) : Prop := view a p s /\ (good s = true -> p <= len a).
Definition takes {A} (a : bytes) (m : IO A) (p : Z) (x : A) (q : Z) : Prop :=
  forall s, viewb a p s -> exists s', m s = (Ok x, s') /\ viewb a q s'.
Lemma takes_ret {A} a p (x : A) : takes a (ret x) p x p.
Proof. intros s V. exists s. auto. Qed.
Lemma takes_bind {A B} a (m : IO A) (k : A -> IO B) p x q y r : takes a m p x q -> takes a (k x) q y r -> takes a (bind m k) p y r.
Proof. intros H1 H2 s V. unfold bind. destruct (H1 s V) as (s1 & -> & V1). apply (H2 s1 V1). Qed.
Lemma run_takes {A B} a (m : IO A) (k : A -> IO B) p x q s : takes a m p x q -> viewb a p s ->
  exists s', bind m k s = k x s' /\ viewb a q s'.
Proof. intros H V. unfold bind. destruct (H s V) as (s1 & -> & V1). now exists s1. Qed.
Lemma takes32 a p : bytes_ok a -> takes a rd32 p (number_at a p 4) (p + 4).
Proof.
  intros HB s [V _]. destruct (read_le_view a 32 4 HB 0 0 p s ltac:(lia) ltac:(reflexivity) V ltac:(lia)) as (s' & E & V' & G).
  exists s'. unfold rd32, of_fun, read32. rewrite E. split; [do 2 f_equal; lia|]. split; [exact V'|]. apply G. left. discriminate.
Qed.
Lemma takes64 a p : bytes_ok a -> takes a rd64 p (number_at a p 8) (p + 8).
Proof.
  intros HB s [V _]. destruct (read_le_view a 64 8 HB 0 0 p s ltac:(lia) ltac:(reflexivity) V ltac:(lia)) as (s' & E & V' & G).
  exists s'. unfold rd64, of_fun, read64. rewrite E. split; [do 2 f_equal; lia|]. split; [exact V'|]. apply G. left. discriminate.
Qed.
Lemma read16_le s : read16 s = read_le 16 2 0 0 s.
Proof.
  unfold read16. cbn [read_le]. destruct (sget s) as [x s1]. destruct (sget s1) as [y s2]. f_equal.
  rewrite Z.lor_0_l, Z.shiftl_0_r. unfold u16. change 65536 with (2 ^ 16). rewrite Z.mod_mod by lia.
  rewrite <- !Z.land_ones by lia. rewrite Z.land_lor_distr_l. f_equal. rewrite <- Z.land_assoc. f_equal.
Qed.
Lemma takes16 a p : bytes_ok a -> takes a rd16 p (number_at a p 2) (p + 2).
Proof.
  intros HB s [V _]. destruct (read_le_view a 16 2 HB 0 0 p s ltac:(lia) ltac:(reflexivity) V ltac:(lia)) as (s' & E & V' & G).
  exists s'. unfold rd16, of_fun. rewrite read16_le, E. split; [do 2 f_equal; lia|]. split; [exact V'|]. apply G. left. discriminate.
Qed.
Lemma takes_name a p n : 0 <= n ->
  takes a (read_name n) p (let got := ztake n (zdrop p a) in got ++ zrepeat 0 (n - len got)) (p + n).
Proof.
  intros Hn s [(W & Hp & V) G]. unfold read_name, sread.
  destruct V as [[Gd R]|[F L]].
  - rewrite Gd, R. specialize (G Gd). destruct (len (ztake n (zdrop p a)) <? n) eqn:E.
    + eexists. split; [reflexivity|]. split; [|rewrite failb_good by reflexivity; discriminate].
      split; [exact W|]. split; [lia|]. right. split; [reflexivity|]. rewrite len_ztake, len_zdrop in E. lia.
    + eexists. split; [reflexivity|]. rewrite len_ztake, len_zdrop in E. split; [|lia]. split; [exact W|]. split; [lia|]. left.
      split; [exact Gd|]. cbn [rest set_rest]. rewrite zdrop_zdrop by lia. f_equal. lia.
  - rewrite (failb_good _ F). eexists. split; [rewrite (zdrop_all _ p) by lia; destruct n; reflexivity|].
    split; [|rewrite failb_good by reflexivity; discriminate]. split; [exact W|]. split; [lia|]. right. split; [reflexivity|lia].
Qed.
Lemma four_at (a : bytes) p : 0 <= p -> p + 4 <= len a -> ztake 4 (zdrop p a) = [byte_at a p; byte_at a (p + 1); byte_at a (p + 2); byte_at a (p + 3)].
Proof.
  intros Hp Hl. unfold byte_at.
  destruct (znth_in_range _ a p ltac:(lia)) as [x0 E0]. destruct (znth_in_range _ a (p + 1) ltac:(lia)) as [x1 E1].
  destruct (znth_in_range _ a (p + 2) ltac:(lia)) as [x2 E2]. destruct (znth_in_range _ a (p + 3) ltac:(lia)) as [x3 E3].
  rewrite (zdrop_znth a p), E0 by lia. rewrite (zdrop_znth a (p + 1)), E1 by lia.
  replace (p + 1 + 1) with (p + 2) by lia. rewrite (zdrop_znth a (p + 2)), E2 by lia.
  replace (p + 2 + 1) with (p + 3) by lia. rewrite (zdrop_znth a (p + 3)), E3 by lia. now apply (ztake_app_exact _ 4 [x0; x1; x2; x3]).
Qed.
Lemma assert_sig_view a p s x0 x1 x2 x3 v : bytes_ok a -> view a p s -> is_byte x0 -> is_byte x1 -> is_byte x2 -> is_byte x3 ->
  v = x0 + 256 * (x1 + 256 * (x2 + 256 * x3)) ->
  exists s', assert_sig [x0; x1; x2; x3] s =
    (if negb (inside a p) then Undef UninitRead else if negb (signed a p v) then Throw RuntimeError else Ok tt, s') /\
    (inside a p = true -> viewb a (p + 4) s').
Proof.
  unfold is_byte. intros HB (W & Hp & V) B0 B1 B2 B3 Hv. unfold assert_sig, sread, inside.
  destruct V as [[G R]|[F L]].
  - rewrite G, R. destruct (p + 4 <=? len a) eqn:EI.
    + assert (len (ztake 4 (zdrop p a)) <? 4 = false) as EL by (rewrite len_ztake, len_zdrop; lia).
      rewrite EL. cbv beta iota. rewrite EL. cbn [negb].
      exists (set_rest s (zdrop 4 (zdrop p a))). split; [|intros _; split; [|lia]; split; [exact W|split; [lia|left; split; [exact G|cbn [rest set_rest]; rewrite zdrop_zdrop by lia; f_equal; lia]]]].
      f_equal. rewrite four_at by lia. unfold signed. cbn [number_at].
      replace (p + 1 + 1) with (p + 2) by lia. replace (p + 2 + 1) with (p + 3) by lia.
      pose proof (byte_at_range a p HB). pose proof (byte_at_range a (p + 1) HB). pose proof (byte_at_range a (p + 2) HB). pose proof (byte_at_range a (p + 3) HB).
      destruct (beq _ _) eqn:EB.
      * apply beq_eq in EB. injection EB as -> -> -> ->. destruct (_ =? _) eqn:E; [reflexivity|lia].
      * destruct (_ =? _) eqn:E; [|reflexivity]. exfalso. 
        assert (byte_at a p = x0 /\ byte_at a (p + 1) = x1 /\ byte_at a (p + 2) = x2 /\ byte_at a (p + 3) = x3) as (E0 & E1 & E2 & E3) by lia.
        rewrite E0, E1, E2, E3 in EB. now rewrite beq_refl in EB.
    + assert (len (ztake 4 (zdrop p a)) <? 4 = true) as EL by (rewrite len_ztake, len_zdrop; lia).
      rewrite EL. cbv beta iota. rewrite EL. cbn [negb]. eexists. split; [reflexivity|discriminate].
  - rewrite (failb_good _ F). destruct (p + 4 <=? len a) eqn:EI; [lia|]. eexists. split; [reflexivity|discriminate].
Qed.
Lemma takes_shared a p : bytes_ok a ->
  takes a read_shared_header p (number_at a (p + 2) 2, number_at a (p + 8) 4, number_at a (p + 12) 4, number_at a (p + 16) 4, number_at a (p + 20) 2) (p + 22).
Proof.
  intros HB. unfold read_shared_header. pose proof (takes16 a) as T16. pose proof (takes32 a) as T32.
  eapply takes_bind; [apply T16, HB|]. eapply takes_bind; [apply T16, HB|].
  replace (p + 2 + 2) with (p + 4) by lia. eapply takes_bind; [apply T32, HB|]. replace (p + 4 + 4) with (p + 8) by lia.
  eapply takes_bind; [apply T32, HB|]. replace (p + 8 + 4) with (p + 12) by lia.
  eapply takes_bind; [apply T32, HB|]. replace (p + 12 + 4) with (p + 16) by lia.
  eapply takes_bind; [apply T32, HB|]. replace (p + 16 + 4) with (p + 20) by lia.
  eapply takes_bind; [apply T16, HB|]. replace (p + 20 + 2) with (p + 22) by lia. apply takes_ret.
Qed.
Lemma seek_cur_view a p s d : viewb a p s -> 0 < d -> view a (p + d) (sseek_cur d s).
Proof.
  intros ((W & Hp & V) & G) Hd. unfold sseek_cur, spos, sseek_abs. rewrite W. destruct V as [[Gd R]|[F L]].
  - specialize (G Gd). rewrite R, len_zdrop.
    assert (failb s = false) as -> by (unfold good in Gd; destruct (failb s); [rewrite andb_false_r in Gd; discriminate|reflexivity]).
    replace (len a - Z.max 0 (len a - Z.max 0 p) + d) with (p + d) by lia.
    destruct (_ || _) eqn:E.
    + split; [first [reflexivity|exact W]|]. split; [lia|]. right. split; [reflexivity|]. apply orb_true_iff in E as [E|E]; [lia|].
      apply andb_true_iff in E as [_ E]. lia.
    + split; [first [reflexivity|exact W]|]. split; [lia|]. left. split; reflexivity.
  - rewrite F. split; [first [reflexivity|exact W]|]. split; [lia|]. right. split; [reflexivity|lia].
Qed.
Lemma seek_view a p s : whole s = a -> failb s = false -> 0 <= p -> view a p (sseek_abs p s).
Proof.
  intros W F Hp. unfold sseek_abs. rewrite F, W. destruct (_ || _) eqn:E.
  - split; [first [reflexivity|exact W]|]. split; [lia|]. right. split; [reflexivity|]. apply orb_true_iff in E as [E|E]; [lia|].
    apply andb_true_iff in E as [_ E]. lia.
  - split; [first [reflexivity|exact W]|]. split; [lia|]. left. split; reflexivity.
Qed.

(** The extra field of a record at [q]: what follows it, if it is accepted. *)
Definition after_extra (a : bytes) (q needed : Z) : option Z :=
  if negb (number_at a q 2 =? 1) then None
  else if number_at a (q + 2) 2 <? needed then None else Some (q + 4 + number_at a (q + 2) 2).
Lemma takes_64_if a p (b : bool) (x : Z) : bytes_ok a ->
  takes a (if b then bind rd64 (fun u => ret (u, 8)) else ret (x, 0)) p (if b then number_at a p 8 else x, 8 * bit b) (p + 8 * bit b).
Proof.
  intros HB. destruct b; unfold bit.
  - eapply takes_bind; [apply takes64, HB|apply takes_ret].
  - replace (p + 8 * 0) with p by lia. apply takes_ret.
Qed.
Ltac run_next HB V s :=
  match goal with |- context [bind ?m ?k s] =>
    match type of V with viewb ?b ?p _ =>
      let T := match m with
               | rd16 => constr:(takes16 b p HB)
               | rd32 => constr:(takes32 b p HB)
               | read_shared_header => constr:(takes_shared b p HB)
               | read_name (number_at _ ?r ?n) => constr:(takes_name b p (number_at b r n) (proj1 (number_at_range b n HB r)))
               | (if ?c then _ else ret (?x, 0)) => constr:(takes_64_if b p c x HB)
               end in
      let s' := fresh "s" in let E := fresh "E" in let V' := fresh "V" in
      destruct (run_takes b m k p _ _ s T V) as (s' & E & V'); rewrite E; clear E V s; rename s' into s; rename V' into V
    end
  end.
Lemma extra_view a q h io s : bytes_ok a -> viewb a q s ->
  let needed := 8 * (bit (f_csize h =? 2 ^ 32 - 1) + bit (f_usize h =? 2 ^ 32 - 1) + bit (io && (f_offset h =? 2 ^ 32 - 1))) in
  match after_extra a q needed with
  | None => fst (read_zip64_extra h io s) = Throw RuntimeError
  | Some r => exists h' s', read_zip64_extra h io s = (Ok h', s') /\ f_name h' = f_name h /\ view a r s'
  end.
Proof.
  intros HB V needed. unfold read_zip64_extra, after_extra.
  run_next HB V s. change ZIP64_TAG with 1. destruct (negb (number_at a q 2 =? 1)); [reflexivity|].
  run_next HB V s. change ZIP64_PLACEHOLDER with (2 ^ 32 - 1).
  run_next HB V s. run_next HB V s. run_next HB V s. cbn [fst snd].
  replace (8 * bit (f_usize h =? 2 ^ 32 - 1) + 8 * bit (f_csize h =? 2 ^ 32 - 1) + 8 * bit (io && (f_offset h =? 2 ^ 32 - 1)))
    with needed by (unfold needed; lia).
  replace (q + 2 + 2 + 8 * bit (f_usize h =? 2 ^ 32 - 1) + 8 * bit (f_csize h =? 2 ^ 32 - 1) + 8 * bit (io && (f_offset h =? 2 ^ 32 - 1)))
    with (q + 4 + needed) in V by (unfold needed; lia).
  destruct (number_at a (q + 2) 2 <? needed) eqn:EL; [reflexivity|].
  destruct (number_at a (q + 2) 2 >? needed) eqn:EG.
  - eexists _, _. split; [reflexivity|]. split; [reflexivity|].
    replace (q + 4 + number_at a (q + 2) 2) with (q + 4 + needed + (number_at a (q + 2) 2 - needed)) by lia.
    apply seek_cur_view; [exact V|lia].
  - eexists _, _. split; [reflexivity|]. split; [reflexivity|]. replace (number_at a (q + 2) 2) with needed by lia. apply V.
Qed.
Lemma run_sig {B} a p s x0 x1 x2 x3 v (k : unit -> IO B) : bytes_ok a -> view a p s -> is_byte x0 -> is_byte x1 -> is_byte x2 -> is_byte x3 ->
  v = x0 + 256 * (x1 + 256 * (x2 + 256 * x3)) ->
  if negb (inside a p) then fst (bind (assert_sig [x0; x1; x2; x3]) k s) = Undef UninitRead
  else if negb (signed a p v) then fst (bind (assert_sig [x0; x1; x2; x3]) k s) = Throw RuntimeError
  else exists s', bind (assert_sig [x0; x1; x2; x3]) k s = k tt s' /\ viewb a (p + 4) s'.
Proof.
  intros HB V B0 B1 B2 B3 Hv. destruct (assert_sig_view a p s x0 x1 x2 x3 v HB V B0 B1 B2 B3 Hv) as (s' & E & V').
  unfold bind. rewrite E. destruct (inside a p); cbn [negb]; [|reflexivity]. destruct (signed a p v); cbn [negb]; [|reflexivity].
  exists s'. auto.
Qed.
Lemma cd_view a p s : bytes_ok a -> view a p s ->
  if negb (inside a p) then fst (read_cd_header s) = Undef UninitRead
  else if negb (signed a p 0x02014b50) then fst (read_cd_header s) = Throw RuntimeError
  else match next_record a p with
       | None => fst (read_cd_header s) = Throw RuntimeError
       | Some q => exists e s', read_cd_header s = (Ok e, s') /\ f_name e = record_name a p /\ view a q s'
       end.
Proof.
  intros HB V0. unfold read_cd_header. 
  change CD_HEADER_SIG with [0x50; 0x4B; 1; 2].
  match goal with |- context [bind (assert_sig _) ?k s] =>
    pose proof (run_sig a p s 0x50 0x4B 1 2 0x02014b50 k HB V0 ltac:(unfold is_byte; lia) ltac:(unfold is_byte; lia) ltac:(unfold is_byte; lia) ltac:(unfold is_byte; lia) eq_refl) as HS end.
  destruct (negb (inside a p)); [exact HS|]. destruct (negb (signed a p 0x02014b50)); [exact HS|].
  destruct HS as (s1 & E & V). rewrite E. clear E V0 s.
  run_next HB V s1. run_next HB V s1. replace (p + 4 + 2) with (p + 6) in * by lia. unfold next_record.
  change ZIP64_VERSION with 45. rewrite Z.gtb_ltb. destruct (45 <? number_at a (p + 6) 2); [reflexivity|].
  run_next HB V s1. replace (p + 6 + 2 + 2) with (p + 10) in * by lia. replace (p + 6 + 2 + 8) with (p + 16) in * by lia.
  replace (p + 6 + 2 + 12) with (p + 20) in * by lia. replace (p + 6 + 2 + 16) with (p + 24) in * by lia.
  replace (p + 6 + 2 + 20) with (p + 28) in * by lia. replace (p + 6 + 2 + 22) with (p + 30) in * by lia. cbv beta iota.
  run_next HB V s1. do 3 run_next HB V s1. run_next HB V s1. run_next HB V s1.
  replace (p + 30 + 2 + 2 + 2 + 2 + 4 + 4) with (p + 46) in * by lia. replace (p + 30 + 2 + 2 + 2 + 2 + 4) with (p + 42) in * by lia.
  run_next HB V s1.
  cbv zeta. rewrite Z.gtb_ltb. pose proof (number_at_range a 2 HB (p + 30)).
  destruct (number_at a (p + 30) 2 =? 0) eqn:EX.
  - destruct (0 <? number_at a (p + 30) 2) eqn:EX2; [lia|]. eexists _, _. split; [reflexivity|]. split; [reflexivity|apply V].
  - destruct (0 <? number_at a (p + 30) 2) eqn:EX2; [|lia].
    match goal with |- context [read_zip64_extra ?h ?io _] => pose proof (extra_view a _ h io s1 HB V) as HX; cbn [f_csize f_usize f_offset f_name andb] in HX end.
    cbv zeta in HX. unfold after_extra in HX. 
    destruct (negb (number_at a (p + 46 + number_at a (p + 28) 2) 2 =? 1)); [exact HX|].
    exact HX.
Qed.
Lemma loop_view a n : bytes_ok a -> forall p s m ks, view a p s ->
  match directory_fate a n p with
  | Readable names => exists m' s', read_cd_loop n m ks s = (Ok (m', ks ++ names), s')
  | Refused => fst (read_cd_loop n m ks s) = Throw RuntimeError
  | Runs_off => fst (read_cd_loop n m ks s) = Undef UninitRead
  end.
Proof.
  intros HB. induction n as [|n IH]; intros p s m ks V; cbn [directory_fate read_cd_loop].
  - exists m, s. now rewrite app_nil_r.
  - pose proof (cd_view a p s HB V) as H. unfold bind.
    assert (forall o, fst (read_cd_header s) = o -> (forall e, o <> Ok e) -> fst (let (r, s') := read_cd_header s in
      match r with Ok e => read_cd_loop n ((f_name e, e) :: m) (ks ++ [f_name e]) s' | Throw e => (Throw e, s') | AssertFail => (AssertFail, s') | Undef u => (Undef u, s') end) =
      match o with Ok _ => AssertFail | Throw e => Throw e | AssertFail => AssertFail | Undef u => Undef u end) as HF.
    { intros o <- Hno. destruct (read_cd_header s) as [[e| | |] s']; cbn [fst] in *; auto. now destruct (Hno e). }
    destruct (negb (inside a p)); [rewrite (HF _ H); [reflexivity|discriminate]|].
    destruct (negb (signed a p 0x02014b50)); [rewrite (HF _ H); [reflexivity|discriminate]|].
    destruct (next_record a p) as [q|]; [|rewrite (HF _ H); [reflexivity|discriminate]].
    destruct H as (e & s1 & H1 & H2 & V1). rewrite H1. specialize (IH q s1 ((f_name e, e) :: m) (ks ++ [f_name e]) V1).
    destruct (directory_fate a n q); [|exact IH|exact IH]. destruct IH as (m' & s' & IH). exists m', s'.
    rewrite IH, H2, <- app_assoc. reflexivity.
Qed.

(** *** C59 *)
(** Opening any bytes at all, from memory or from a file: decided by the bytes as
    [archive_fate] says. Behaviour is undefined exactly if a signature to be compared is
    not completely in the file; otherwise the archive opens with the names the directory
    lists, or std::runtime_error is thrown. *)
Definition opens_as (f : fate) (o : outcome reader) : Prop :=
  match f with
  | Readable names => exists r, o = Ok r /\ StronglySorted lex_le (r_keys r) /\ Permutation (r_keys r) names
  | Refused => o = Throw RuntimeError
  | Runs_off => o = Undef UninitRead
  end.
Lemma open_any a s : bytes_ok a -> whole s = a -> failb s = false -> opens_as (archive_fate a) (open_reader s).
Proof.
  intros HB W F. unfold open_reader, archive_fate, read_entries, sseek_end. unfold bind at 1. rewrite W.
  assert (22 <= len a -> view a (len a - 22) (sseek_abs (len a + - CD_END_SIZE) s)) as V.
  { intros HL. change (- CD_END_SIZE) with (-22). replace (len a + -22) with (len a - 22) by lia. apply seek_view; auto. lia. }
  assert (len a < 22 -> failb (sseek_abs (len a + - CD_END_SIZE) s) = true) as VF.
  { intros HL. unfold sseek_abs. rewrite F. change (- CD_END_SIZE) with (-22). assert (len a + -22 <? 0 = true) as -> by lia. reflexivity. }
  assert (whole (sseek_abs (len a + - CD_END_SIZE) s) = a) as W1 by (rewrite <- W; apply seek_keeps).
  generalize dependent (sseek_abs (len a + - CD_END_SIZE) s). intros s1 V VF W1. clear W F s.
  unfold read_eocd. change CD_END_SIG with [0x50; 0x4B; 5; 6].
  destruct (len a <? 22) eqn:EL.
  { specialize (VF ltac:(lia)). unfold bind, assert_sig, sread. rewrite (failb_good _ VF). reflexivity. }
  specialize (V ltac:(lia)). clear VF.
  match goal with |- opens_as ?f _ => set (ft := f) end.
  destruct (assert_sig_view a (len a - 22) s1 0x50 0x4B 5 6 0x06054b50 HB V) as (s2 & E & V2); try (unfold is_byte; lia).
  assert (inside a (len a - 22) = true) as HI by (unfold inside; lia). specialize (V2 HI). rewrite HI in E. cbn [negb] in E.
  unfold ft. clear ft. unfold bind at 2. unfold bind at 1. rewrite E. clear E V W1 s1.
  destruct (signed a (len a - 22) 0x06054b50); cbn [negb]; [|reflexivity].
  assert (takes a (bind rd16 (fun _ => bind rd16 (fun _ => bind rd16 (fun n => bind rd16 (fun _ => bind rd32 (fun size => bind rd32 (fun offset => ret (n, size, offset))))))))
    (len a - 18) (number_at a (len a - 14) 2, number_at a (len a - 10) 4, number_at a (len a - 6) 4) (len a - 2)) as HT.
  { eapply takes_bind; [apply takes16, HB|]. eapply takes_bind; [apply takes16, HB|]. replace (len a - 18 + 2 + 2) with (len a - 14) by lia.
    eapply takes_bind; [apply takes16, HB|]. eapply takes_bind; [apply takes16, HB|]. replace (len a - 14 + 2 + 2) with (len a - 10) by lia.
    eapply takes_bind; [apply takes32, HB|]. replace (len a - 10 + 4) with (len a - 6) by lia.
    eapply takes_bind; [apply takes32, HB|]. replace (len a - 6 + 4) with (len a - 2) by lia. apply takes_ret. }
  replace (len a - 22 + 4) with (len a - 18) in V2 by lia.
  destruct (HT s2 V2) as (s3 & E3 & V3). rewrite E3. clear E3 HT.
  assert (whole s3 = a /\ failb s3 = false) as [W3 F3].
  { destruct V3 as ((W & _ & [[G _]|[_ L]]) & _); [|lia]. split; [exact W|]. unfold good in G. destruct (failb s3); [rewrite andb_false_r in G; discriminate|reflexivity]. }
  unfold bind at 1. pose proof (number_at_range a 4 HB (len a - 6)) as HR.
  pose proof (seek_view a (number_at a (len a - 6) 4) s3 W3 F3 ltac:(lia)) as V4.
  pose proof (loop_view a (Z.to_nat (number_at a (len a - 14) 2)) HB _ _ [] [] V4) as HL. unfold bind.
  destruct (directory_fate a (Z.to_nat (number_at a (len a - 14) 2)) (number_at a (len a - 6) 4)) as [names| |]; cbn [opens_as].
  - destruct HL as (m' & s' & ->). cbn [fst snd ret app]. eexists. split; [reflexivity|]. cbn [r_keys]. apply sort_sorted.
  - destruct (read_cd_loop _ _ _ _) as [[x|x| |x] s']; cbn [fst] in HL; try discriminate. now injection HL as ->.
  - destruct (read_cd_loop _ _ _ _) as [[x|x| |x] s']; cbn [fst] in HL; try discriminate. now injection HL as ->.
Qed.
Theorem C59_any_bytes_as_archive : forall a, bytes_ok a ->
  opens_as (archive_fate a) (new_string_reader a) /\ opens_as (archive_fate a) (new_file_reader (Some a)).
Proof. intros a HB. split; apply open_any; auto. Qed.
Print Assumptions C59_any_bytes_as_archive.

(** What then can happen when an entry is read. *)
Definition calm {A} (m : IO A) : Prop := forall s, (exists x, fst (m s) = Ok x) \/ fst (m s) = Throw RuntimeError.
Lemma calm_bind {A B} (m : IO A) (k : A -> IO B) : calm m -> (forall x, calm (k x)) -> calm (bind m k).
Proof.
  intros H1 H2 s. unfold bind. destruct (H1 s) as [[x E]|E]; destruct (m s) as [o s1]; cbn [fst] in E; subst o; [apply H2|now right].
Qed.
Lemma calm_ret {A} (x : A) : calm (ret x). Proof. intros s. left. now exists x. Qed.
Lemma calm_throw {A} : calm (lift (@Throw A RuntimeError)). Proof. intros s. now right. Qed.
Lemma calm_of {A} (f : istream -> A * istream) : calm (of_fun f).
Proof. intros s. left. unfold of_fun. destruct (f s) as [x s']. now exists x. Qed.
Lemma calm_name n : calm (read_name n).
Proof. intros s. left. unfold read_name. destruct (sread n s) as [x s']. cbn. eauto. Qed.
Lemma calm_extra h io : calm (read_zip64_extra h io).
Proof.
  unfold read_zip64_extra. apply calm_bind; [apply calm_of|intros tag]. destruct (negb _); [apply calm_throw|].
  apply calm_bind; [apply calm_of|intros ac].
  apply calm_bind; [destruct (_ =? _); [apply calm_bind; [apply calm_of|intros; apply calm_ret]|apply calm_ret]|intros x1].
  apply calm_bind; [destruct (_ =? _); [apply calm_bind; [apply calm_of|intros; apply calm_ret]|apply calm_ret]|intros x2].
  apply calm_bind; [destruct (_ && _); [apply calm_bind; [apply calm_of|intros; apply calm_ret]|apply calm_ret]|intros x3].
  cbv zeta. destruct (_ <? _); [apply calm_throw|]. destruct (_ >? _); [intros s; left; eexists; reflexivity|apply calm_ret].
Qed.
Lemma calm_shared : calm read_shared_header.
Proof. unfold read_shared_header. repeat (apply calm_bind; [apply calm_of|intros ?]). apply calm_ret. Qed.

Lemma cd_csize_range s e s' : read_cd_header s = (Ok e, s') -> 0 <= f_csize e.
Proof.
  assert (gives read_cd_header (fun e => 0 <= f_csize e)) as H; [|apply H].
  assert (forall x, 0 <= x < 2 ^ 64 -> 0 <= x) as HN by (intros; lia).
  unfold read_cd_header. eapply gives_bind; [apply gives_any|intros ? _].
  eapply gives_bind; [apply gives_any|intros ? _]. eapply gives_bind; [apply gives_any|intros ver _].
  destruct (_ >? _); [apply gives_lift; discriminate|].
  eapply (gives_bind _ _ (fun x => 0 <= snd (fst (fst x)))).
  { unfold read_shared_header. do 4 (eapply gives_bind; [apply gives_any|intros ? _]).
    eapply gives_bind; [apply gives_rd32|intros cs Hcs]. do 2 (eapply gives_bind; [apply gives_any|intros ? _]).
    apply gives_ret. cbn. apply HN, Hcs. }
  intros [[[[m c] cs] us] nl] Hcs. cbn [fst snd] in Hcs.
  do 7 (eapply gives_bind; [apply gives_any|intros ? _]). cbv zeta.
  destruct (_ >? _); [|apply gives_ret; exact Hcs].
  unfold read_zip64_extra. eapply gives_bind; [apply gives_any|intros tag _]. destruct (negb _); [apply gives_lift; discriminate|].
  eapply gives_bind; [apply gives_any|intros actual _]. eapply gives_bind; [apply gives_any|intros x1 _].
  eapply (gives_bind _ _ (fun x => 0 <= fst x)).
  - destruct (_ =? _); [eapply gives_bind; [apply gives_rd64|intros o Ho; apply gives_ret; apply HN, Ho]|apply gives_ret; exact Hcs].
  - intros x2 H2. eapply gives_bind; [apply gives_any|intros x3 _]. cbv zeta. destruct (_ <? _); [apply gives_lift; discriminate|]. destruct (_ >? _).
    + intros sx ax sy HX. injection HX as <- _. exact H2.
    + apply gives_ret. exact H2.
Qed.
Lemma sread_len n s : 0 <= len (fst (sread n s)) <= Z.max 0 n.
Proof.
  unfold sread. destruct (good s); [|cbn [fst]; rewrite len_nil; lia]. cbv zeta.
  destruct (_ <? _); cbn [fst]; rewrite len_ztake; pose proof (len_nonneg _ (rest s)); lia.
Qed.

(** The local header of an entry does not begin inside the file. *)
Definition out_of_reach (a : bytes) (e : file_entry) : Prop := 2 ^ 63 <= f_offset e \/ len a < f_offset e + 4.
(** std::ios::fail() of the reader's stream: an earlier operation of this reader went
    past the end of the archive (C46). *)
Definition failed (r : reader) : Prop := failb (r_in r) = true.
(** Reading any name of any archive that opened: the entry whose name it is, if there is
    one, decides. Undefined behaviour is a failed stream, a local header out of reach, or the
    decompressor's own. *)
Theorem C59_any_entry : forall v c a r r' n, bytes_ok a -> opened a r -> reader_after v c r r' ->
  let result := fst (r_read_file v c r' n) in
  match find_entry (r_entries r) n with
  | None => result = Throw InvalidArgument
  | Some e =>
      directory_record a e /\ (f_name e = n \/ f_name e = n ++ str ".npy") /\
      ((failed r' \/ out_of_reach a e) /\ result = Undef UninitRead \/
       ~ (failed r' \/ out_of_reach a e) /\
       (result = Throw RuntimeError \/
        result = Throw AllocError /\ mem v < f_csize e \/
        exists raw, len raw = f_csize e /\
          let data := if f_method e =? DEFLATED then c_inflate c raw else Ok raw in
          (exists b, data = Ok b /\ npy_crc32 b = f_crc e /\ result = Ok b) \/
          (~ exists b, data = Ok b) /\ result = data))
  end.
Proof.
  intros v c a r r' n HB Hop Haf result. destruct (opened_facts a r Hop) as (HD & HW & HS & _).
  destruct (after_facts v c r r' Haf) as (E1 & E2 & E3 & _ & E5). unfold result, r_read_file. rewrite E1.
  unfold read_file. destruct (find_entry (r_entries r) n) as [e|] eqn:EF; [|reflexivity].
  destruct (find_named a _ _ _ HD EF) as [HD' HN]. split; [exact HD'|]. split; [exact HN|].
  assert (0 <= f_offset e < 2 ^ 64) as HO by (destruct HD' as (off & fl & s' & _ & HCD); exact (cd_offset_range _ _ _ HCD)).
  assert ((let (o, s) := bind (fun s0 => (Ok tt, sseek_abs (s64 (f_offset e)) s0)) (fun _ => bind read_local_header (fun l =>
     if negb (entry_check e l) then lift (Throw RuntimeError) else if f_csize e >? mem v then lift (Throw AllocError)
     else bind (read_name (f_csize e)) (fun raw => bind (if f_method e =? DEFLATED then lift (c_inflate c raw) else ret raw) (fun b => if npy_crc32 b =? f_crc e then ret b else lift (Throw RuntimeError)))))
     (r_in r') in (o, mk_reader s (r_entries r) (r_keys r'))) = 
     (let (o, s) := bind read_local_header (fun l =>
     if negb (entry_check e l) then lift (Throw RuntimeError) else if f_csize e >? mem v then lift (Throw AllocError)
     else bind (read_name (f_csize e)) (fun raw => bind (if f_method e =? DEFLATED then lift (c_inflate c raw) else ret raw) (fun b => if npy_crc32 b =? f_crc e then ret b else lift (Throw RuntimeError))))
     (sseek_abs (s64 (f_offset e)) (r_in r')) in (o, mk_reader s (r_entries r) (r_keys r')))) as -> by reflexivity.
  assert (forall (B : Type) (k : file_entry -> IO B) s, good s = false -> fst (bind read_local_header k s) = Undef UninitRead) as HBad.
  { intros B k s G. unfold bind, read_local_header, assert_sig, sread, bind. cbv beta. rewrite G. reflexivity. }
  assert (forall (k : file_entry -> IO bytes) s x, fst (bind read_local_header k s) = x ->
    fst (let (o, s) := bind read_local_header k s in (o, mk_reader s (r_entries r) (r_keys r'))) = x) as HF.
  { intros k s x <-. now destruct (bind read_local_header k s). }
  destruct (failb (r_in r')) eqn:F.
  { left. split; [left; exact F|]. apply HF, HBad. unfold sseek_abs. rewrite F. reflexivity. }
  destruct (Z_le_dec (2 ^ 63) (f_offset e)) as [H63|H63].
  { left. split; [right; now left|]. apply HF, HBad. unfold sseek_abs, s64. rewrite F.
    destruct (f_offset e <? 9223372036854775808) eqn:E; [lia|]. assert (f_offset e - 18446744073709551616 <? 0 = true) as -> by lia.
    apply failb_good. reflexivity. }
  assert (s64 (f_offset e) = f_offset e) as -> by (unfold s64; destruct (_ <? _) eqn:E; [reflexivity|lia]).
  pose proof (seek_view a (f_offset e) (r_in r') ltac:(congruence) F ltac:(lia)) as V.
  unfold read_local_header in *. change LOCAL_HEADER_SIG with [0x50; 0x4B; 3; 4] in *. generalize dependent (sseek_abs (f_offset e) (r_in r')).
  intros s V. clear HBad.
  destruct (Z_lt_dec (len a) (f_offset e + 4)) as [HL|HL].
  { left. split; [right; now right|]. apply HF. unfold bind at 1.
    match goal with |- context [bind (assert_sig _) ?k s] =>
      pose proof (run_sig a (f_offset e) s 0x50 0x4B 3 4 0x04034b50 k HB V ltac:(unfold is_byte; lia) ltac:(unfold is_byte; lia) ltac:(unfold is_byte; lia) ltac:(unfold is_byte; lia) eq_refl) as HG end.
    assert (inside a (f_offset e) = false) as HI by (unfold inside; lia). rewrite HI in HG. cbn [negb] in HG.
    destruct (bind (assert_sig _) _ s) as [[x|x| |x] s']; cbn [fst] in *; try discriminate. now injection HG as ->. }
  right. split; [unfold failed, out_of_reach; rewrite F; intros [C|[C|C]]; [discriminate|lia|lia]|].
  match goal with |- context [bind (bind (assert_sig ?x) ?k) ?k2 s] =>
    pose proof (run_sig a (f_offset e) s 0x50 0x4B 3 4 0x04034b50 k HB V ltac:(unfold is_byte; lia) ltac:(unfold is_byte; lia) ltac:(unfold is_byte; lia) ltac:(unfold is_byte; lia) eq_refl) as HG;
    assert (forall u, calm (k u)) as HC; [|set (kk := k) in *; set (k3 := k2) in *] end.
  { intros _. apply calm_bind; [apply calm_of|intros ver]. destruct (_ >? _); [apply calm_throw|].
    apply calm_bind; [apply calm_shared|intros [[[[me cr] cs] us] nl]]. apply calm_bind; [apply calm_of|intros ex].
    apply calm_bind; [apply calm_name|intros nm]. cbv zeta. destruct (_ >? _); [apply calm_extra|apply calm_ret]. }
  assert (inside a (f_offset e) = true) as HI by (unfold inside; lia). rewrite HI in HG. cbn [negb] in HG.
  destruct (negb (signed a (f_offset e) 67324752)).
  { left. apply HF. unfold bind at 1. destruct (bind (assert_sig _) kk s) as [[x|x| |x] s']; cbn [fst] in *; try discriminate. now injection HG as ->. }
  destruct HG as (s1 & HG & _). 
  assert (fst (let (o, s0) := bind (bind (assert_sig [80; 75; 3; 4]) kk) k3 s in (o, mk_reader s0 (r_entries r) (r_keys r'))) =
    match fst (kk tt s1) with Ok l => fst (k3 l (snd (kk tt s1))) | Throw x => Throw x | AssertFail => AssertFail | Undef u => Undef u end) as ->.
  { apply HF. unfold bind at 1. rewrite HG. destruct (kk tt s1) as [[x|x| |x] s']; reflexivity. }
  destruct (HC tt s1) as [[l Hl]|Hl]; rewrite Hl; [|now left]. unfold k3.
  destruct (negb (entry_check e l)); [now left|]. destruct (f_csize e >? mem v) eqn:EM; [right; left; split; [reflexivity|lia]|].
  generalize (snd (kk tt s1)). intros s2. unfold bind, read_name. destruct (sread (f_csize e) s2) as [got s3] eqn:ES.
  set (raw := got ++ zrepeat 0 (f_csize e - len got)).
  assert (len raw = f_csize e) as HLR.
  { pose proof (sread_len (f_csize e) s2) as HSL. rewrite ES in HSL. cbn [fst] in HSL. unfold raw. rewrite len_app, len_zrepeat.
    assert (0 <= f_csize e) as H0 by (destruct HD' as (off & fl & s' & _ & HCD); exact (cd_csize_range _ _ _ HCD)). lia. }
  assert (forall b, (if f_method e =? DEFLATED then c_inflate c raw else Ok raw) = Ok b -> 
    let x := fst ((if npy_crc32 b =? f_crc e then ret b else lift (Throw RuntimeError)) s3) in
    x = Throw RuntimeError \/ (npy_crc32 b = f_crc e /\ x = Ok b)) as HB2.
  { intros b _. cbv zeta. destruct (npy_crc32 b =? f_crc e) eqn:EC; [right; split; [lia|reflexivity]|now left]. }
  cbv zeta in *. destruct (f_method e =? DEFLATED) eqn:EMt.
  - unfold lift at 1. destruct (c_inflate c raw) as [b|x| |u] eqn:EC.
    + destruct (HB2 b eq_refl) as [H|[H1 H2]]; [left; exact H|]. right. right. exists raw. split; [exact HLR|]. rewrite EC. left. exists b. auto.
    + right. right. exists raw. split; [exact HLR|]. rewrite EC. right. split; [intros [b Hb]; discriminate|reflexivity].
    + right. right. exists raw. split; [exact HLR|]. rewrite EC. right. split; [intros [b Hb]; discriminate|reflexivity].
    + right. right. exists raw. split; [exact HLR|]. rewrite EC. right. split; [intros [b Hb]; discriminate|reflexivity].
  - unfold ret at 1. destruct (HB2 raw eq_refl) as [H|[H1 H2]]; [left; exact H|]. right. right. exists raw. split; [exact HLR|]. left. exists raw. auto.
Qed.
Print Assumptions C59_any_entry.

(** Loading a tensor from any bytes that opened as an archive, release build: an assertion is
    never hit, and behaviour is undefined only for the reasons above or because the member
    itself is no NPY file (C55). *)
Theorem C59_any_member : forall v c d a r r' n g, bytes_ok a -> opened a r -> reader_after v c r r' -> dbg v = false ->
  (forall raw, c_inflate c raw <> AssertFail) ->
  let result := fst (fst (r_read v c d r' n g)) in
  result <> AssertFail /\
  forall u, result = Undef u -> exists e, find_entry (r_entries r) n = Some e /\
    ((failed r' \/ out_of_reach a e) /\ u = UninitRead \/
     (f_method e = DEFLATED /\ exists raw, c_inflate c raw = Undef u) \/
     exists b, npy_crc32 b = f_crc e /\
       (u = OutOfBounds \/ u = UninitRead /\
         (lacks (open_str b) 10 \/ says_version_2 (open_str b) /\ lacks (open_str b) 12 \/
          exists h, fst (fst (peek v (open_str b) g)) = Ok h /\ (h_dtype h = None \/ h_fortran h = None)))).
Proof.
  intros v c d a r r' n g HB Hop Haf Hrel HI result.
  pose proof (C59_any_entry v c a r r' n HB Hop Haf) as H. cbv zeta in H.
  assert (forall b r2, r_read_file v c r' n = (Ok b, r2) -> result = fst (fst (load v d (open_str b) g))) as HOk.
  { intros b r2 E. unfold result, r_read. rewrite E. now destruct (load v d (open_str b) g) as [[o s] g']. }
  assert (forall o, fst (r_read_file v c r' n) = o -> (forall b, o <> Ok b) -> 
    result = match o with Ok _ => AssertFail | Throw e => Throw e | AssertFail => AssertFail | Undef u => Undef u end) as HBad.
  { intros o E Hno. unfold result, r_read. destruct (r_read_file v c r' n) as [[b|x| |x] r2]; cbn [fst] in E; subst o; auto.
    now destruct (Hno b). }
  destruct (find_entry (r_entries r) n) as [e|]; [|rewrite (HBad _ H) by discriminate; split; discriminate].
  destruct H as (_ & _ & [[HD HR]|[_ [HR|[[HR _]|(raw & _ & HR)]]]]).
  - rewrite (HBad _ HR) by discriminate. split; [discriminate|]. intros u Hu. injection Hu as <-. exists e. split; [reflexivity|]. left. auto.
  - rewrite (HBad _ HR) by discriminate. split; discriminate.
  - rewrite (HBad _ HR) by discriminate. split; discriminate.
  - destruct HR as [(b & _ & HC & HR)|[HN HR]].
    + destruct (r_read_file v c r' n) as [o r2] eqn:E. cbn [fst] in HR. subst o. rewrite (HOk _ _ eq_refl).
      destruct (C55_arbitrary_bytes v d (open_str b) g Hrel) as (P1 & _ & _ & _ & P5 & _ & P7 & _).
      split; [exact P1|]. intros u Hu. exists e. split; [reflexivity|]. right. right. exists b. split; [exact HC|].
      destruct (P7 u Hu) as [HP|[-> HP]].
      * destruct (P5 u HP) as [[-> [HX|HX]]|HX]; auto.
      * right. split; [reflexivity|]. right. right. exact HP.
    + destruct (f_method e =? DEFLATED) eqn:EM.
      * destruct (c_inflate c raw) as [b|x| |u0] eqn:EC; [destruct HN; eauto| |now destruct (HI raw)|];
          rewrite (HBad _ HR) by discriminate; split; try discriminate.
        intros u Hu. injection Hu as <-. exists e. split; [reflexivity|]. right. left. split; [lia|eauto].
      * destruct HN. eauto.
Qed.
Print Assumptions C59_any_member.

(** Fewer than 22 bytes - an empty file, say - are not refused. *)
Theorem C59_short_files : forall a, len a < 22 ->
  new_string_reader a = Undef UninitRead /\ new_file_reader (Some a) = Undef UninitRead.
Proof.
  intros a H.
  assert (forall s, whole s = a -> failb s = false -> open_reader s = Undef UninitRead) as HX.
  { intros s W F. unfold open_reader, read_entries, bind, sseek_end, sseek_abs. rewrite F, W. change CD_END_SIZE with 22.
    assert (len a + - (22) <? 0 = true) as -> by lia. reflexivity. }
  split; apply HX; reflexivity.
Qed.
Print Assumptions C59_short_files.

(** All three fates happen: one directory record, and an end record that counts it; that
    counts one too many; that points past the end. *)
Definition one_record : bytes := write_cd_header (mk_entry (str "a.npy") 1 2 3 0 0).
Example C59_case :
  let a n off := one_record ++ write_eocd n 51 off in
  bytes_ok (a 1 0) /\ archive_fate (a 1 0) = Readable [str "a.npy"] /\ (exists r, new_string_reader (a 1 0) = Ok r /\ r_keys r = [str "a.npy"]) /\
  archive_fate (a 2 0) = Refused /\ new_string_reader (a 2 0) = Throw RuntimeError /\
  archive_fate (a 1 70) = Runs_off /\ new_string_reader (a 1 70) = Undef UninitRead /\
  (* in the first there is no local header where the entry should be *)
  exists r e, new_string_reader (a 1 0) = Ok r /\ find_entry (r_entries r) (str "a") = Some e /\ ~ out_of_reach (a 1 0) e /\
    fst (r_read_file case_env (mk_codec Ok Ok) r (str "a")) = Throw RuntimeError.
Proof.
  cbv zeta. split; [apply is_byteb_ok; vm_compute; reflexivity|]. split; [vm_compute; reflexivity|].
  split; [eexists; split; vm_compute; reflexivity|]. split; [vm_compute; reflexivity|]. split; [vm_compute; reflexivity|].
  split; [vm_compute; reflexivity|]. split; [vm_compute; reflexivity|].
  eexists _, _. split; [vm_compute; reflexivity|]. split; [vm_compute; reflexivity|]. split; [|vm_compute; reflexivity].
  intros [H|H]; vm_compute in H; [now apply H|discriminate].
Qed.
(** ... and an entry out of reach. *)
Example C59_out_of_reach_case :
  let a := write_cd_header (mk_entry (str "a.npy") 1 2 3 0 1000) ++ write_eocd 1 51 0 in
  exists r e, new_string_reader a = Ok r /\ find_entry (r_entries r) (str "a") = Some e /\ out_of_reach a e /\
    fst (r_read_file case_env (mk_codec Ok Ok) r (str "a")) = Undef UninitRead.
Proof.
  cbv zeta. eexists _, _. split; [vm_compute; reflexivity|]. split; [vm_compute; reflexivity|]. split; [|vm_compute; reflexivity].
  right. vm_compute. reflexivity.
Qed.
