(** The LZ code buffer of the compressor and the bits of its tokens
    (src/miniz/miniz.cpp 1102-1189, 1550-1578). *)
From Coq Require Import ZArith List Bool Lia.
From Verif Require Import Base Arr Tinfl Tdefl BaseFacts DeflateSpec BitFacts HuffFacts HuffBuild MinRed DeflHuff DeflBits.
Import ListNotations.
Open Scope Z_scope.

(** ** Tokens, their symbols and their bits *)
Definition is_copy (t : token) : bool := match t with Lit _ => false | Copy _ _ => true end.
Definition tok_ok (t : token) : Prop :=
  match t with Lit c => 0 <= c < 256 | Copy n d => 3 <= n <= 258 /\ 1 <= d <= 32768 end.
Definition tok_bytes (t : token) : bytes :=
  match t with Lit c => [c] | Copy n d => [n - 3; (d - 1) mod 256; (d - 1) / 256] end.
Definition tok_sym (t : token) : Z :=
  match t with Lit c => c | Copy n _ => at_index s_tdefl_len_sym (n - 3) end.
Definition tok_in (LL DL : list Z) (t : token) : Prop :=
  in_code LL (tok_sym t) /\ match t with Lit _ => True | Copy _ d => in_code DL (dist_sym (d - 1)) end.
Definition tokb (LL DL : list Z) (t : token) : list bool :=
  match t with
  | Lit c => codeword LL c
  | Copy n d =>
      codeword LL (at_index s_tdefl_len_sym (n - 3))
      ++ lsb_bits (Z.to_nat (at_index s_tdefl_len_extra (n - 3))) (n - 3)
      ++ codeword DL (dist_sym (d - 1)) ++ lsb_bits (Z.to_nat (dist_extra (d - 1))) (d - 1)
  end.

Definition len_check (l : Z) : bool :=
  let s := at_index s_tdefl_len_sym l in
  let x := at_index s_tdefl_len_extra l in
  (0 <=? x) && (x <=? 5) && (257 <=? s) && (s <=? 285) &&
  match znth length_codes (s - 257) with
  | Some (lb, lx) => (lx =? x) && (0 <=? l + 3 - lb) && (l + 3 - lb <? 2 ^ lx)
                     && (l mod 2 ^ lx =? l + 3 - lb)
  | None => false
  end.
Definition dist_check (v : Z) : bool :=
  let s := dist_sym v in
  let x := dist_extra v in
  (0 <=? x) && (x <=? 13) && (0 <=? s) && (s <=? 29) &&
  match znth distance_codes s with
  | Some (db, dx) => (dx =? x) && (0 <=? v + 1 - db) && (v + 1 - db <? 2 ^ dx)
                     && (v mod 2 ^ dx =? v + 1 - db)
  | None => false
  end.
Lemma len_check_all : forallb (fun n => len_check (Z.of_nat n)) (seq 0 256) = true.
Proof. vm_compute. reflexivity. Qed.
Lemma dist_check_all :
  forallb (fun a => forallb (fun b => dist_check (128 * Z.of_nat a + Z.of_nat b)) (seq 0 128)) (seq 0 256) = true.
Proof. vm_compute. reflexivity. Qed.
Lemma len_check_ok l : 0 <= l < 256 -> len_check l = true.
Proof.
  intros H. pose proof len_check_all as A. rewrite forallb_forall in A.
  specialize (A (Z.to_nat l)). rewrite Z2Nat.id in A by lia. apply A. apply in_seq. lia.
Qed.
Lemma dist_check_ok v : 0 <= v < 32768 -> dist_check v = true.
Proof.
  intros H. pose proof dist_check_all as A. rewrite forallb_forall in A.
  pose proof (Z.div_mod v 128 ltac:(lia)) as DM. pose proof (Z.mod_pos_bound v 128 ltac:(lia)) as MB.
  specialize (A (Z.to_nat (v / 128))). cbv beta in A.
  assert (0 <= v / 128 < 256) by (split; [apply Z.div_pos; lia|apply Z.div_lt_upper_bound; lia]).
  assert (In (Z.to_nat (v / 128)) (seq 0 256)) as I by (apply in_seq; lia).
  specialize (A I). rewrite forallb_forall in A. specialize (A (Z.to_nat (v mod 128))).
  rewrite !Z2Nat.id in A by lia. rewrite <- DM in A. apply A. apply in_seq. lia.
Qed.
Ltac split_check H :=
  repeat match type of H with (_ && _)%bool = true => let K := fresh "K" in apply andb_prop in H; destruct H as [H K] end.
Lemma len_facts l : 0 <= l < 256 -> exists lb lx,
  znth length_codes (at_index s_tdefl_len_sym l - 257) = Some (lb, lx) /\
  at_index s_tdefl_len_extra l = lx /\ 0 <= lx <= 5 /\ 257 <= at_index s_tdefl_len_sym l <= 285 /\
  0 <= l + 3 - lb < 2 ^ lx /\ l mod 2 ^ lx = l + 3 - lb.
Proof.
  intros H. pose proof (len_check_ok l H) as C. unfold len_check in C.
  apply andb_prop in C. destruct C as [C D]. split_check C.
  destruct (znth length_codes _) as [[lb lx]|]; [|discriminate]. split_check D.
  rewrite Z.leb_le, ?Z.eqb_eq, ?Z.ltb_lt in *. exists lb, lx. repeat split; lia.
Qed.
Lemma dist_facts v : 0 <= v < 32768 -> exists db dx,
  znth distance_codes (dist_sym v) = Some (db, dx) /\
  dist_extra v = dx /\ 0 <= dx <= 13 /\ 0 <= dist_sym v <= 29 /\
  0 <= v + 1 - db < 2 ^ dx /\ v mod 2 ^ dx = v + 1 - db.
Proof.
  intros H. pose proof (dist_check_ok v H) as C. unfold dist_check in C.
  apply andb_prop in C. destruct C as [C D]. split_check C.
  destruct (znth distance_codes _) as [[lb lx]|]; [|discriminate]. split_check D.
  rewrite Z.leb_le, ?Z.eqb_eq, ?Z.ltb_lt in *. exists lb, lx. repeat split; lia.
Qed.

Lemma tokb_ok LL DL t : tok_ok t -> tok_in LL DL t -> token_bits LL DL t (tokb LL DL t).
Proof.
  destruct t as [c|n d]; intros O [I1 I2].
  - now apply Lit_bits.
  - destruct O as [On Od]. destruct (len_facts (n - 3)) as (lb & lx & L1 & L2 & L3 & L4 & L5 & L6); [lia|].
    destruct (dist_facts (d - 1)) as (db & dx & D1 & D2 & D3 & D4 & D5 & D6); [lia|].
    cbn [tokb tok_sym] in *. set (s := at_index s_tdefl_len_sym (n - 3)) in *.
    rewrite L2, D2. rewrite <- (lsb_mod (Z.to_nat lx)), <- (lsb_mod (Z.to_nat dx)). rewrite !Z2Nat.id by lia.
    rewrite L6, D6.
    replace n with (lb + (n - 3 + 3 - lb)) at 1 by lia. replace d with (db + (d - 1 + 1 - db)) at 1 by lia.
    replace s with (257 + (s - 257)) by lia.
    apply Copy_bits; try assumption. replace (257 + (s - 257)) with s by lia. assumption.
Qed.
Definition toksb (LL DL : list Z) (ts : list token) : list bool := flat_map (tokb LL DL) ts.
Lemma toksb_ok LL DL ts : in_code LL 256 -> Forall tok_ok ts -> Forall (tok_in LL DL) ts ->
  tokens_bits LL DL ts (toksb LL DL ts ++ codeword LL 256).
Proof.
  intros E O I. induction ts as [|t ts IH]; cbn [toksb flat_map app]; [now constructor|].
  inversion_clear O. inversion_clear I. rewrite <- app_assoc. constructor; [now apply tokb_ok|now apply IH].
Qed.
Lemma codeword_len L s : 0 <= code_len L s -> len (codeword L s) = code_len L s.
Proof. intros. unfold len. rewrite codeword_length. lia. Qed.

(** ** Codes on the 64-bit buffer *)
Record tables_ok (t : tables) : Prop := {
  to_codes0 : codes_for (t_sizes0 t) (t_codes0 t);
  to_codes1 : codes_for (t_sizes1 t) (t_codes1 t);
  to_max0 : Forall (fun x => 0 <= x <= 15) (t_sizes0 t);
  to_max1 : Forall (fun x => 0 <= x <= 15) (t_sizes1 t)
}.
Lemma code_len_max L s : Forall (fun x => 0 <= x <= 15) L -> 0 <= code_len L s <= 15.
Proof.
  intros F. unfold code_len. destruct (nth_in_or_default (Z.to_nat s) L 0) as [I|E]; [|rewrite E; lia].
  now apply (proj1 (Forall_forall _ _) F).
Qed.
Lemma put_code L C s x bits : codes_for L C -> Forall (fun x => 0 <= x <= 15) L -> in_code L s ->
  fast_ok x bits -> len bits <= 49 ->
  fast_ok (put_fast (at_index C s) (at_index L s) x) (bits ++ codeword L s).
Proof.
  intros CF M I F H. destruct (CF s I) as [R <-]. pose proof (code_len_max L s M).
  apply put_fast_ok; try assumption; try rewrite (fast_len _ _ F); change (at_index L s) with (code_len L s); lia.
Qed.
Lemma lit_fast_ok t c x bits : tables_ok t -> tok_in (t_sizes0 t) (t_sizes1 t) (Lit c) ->
  fast_ok x bits -> len bits <= 49 ->
  fast_ok (lit_fast t c x) (bits ++ tokb (t_sizes0 t) (t_sizes1 t) (Lit c)).
Proof. intros [] [I _] F H. cbn [tok_sym tokb] in *. unfold lit_fast. now apply put_code. Qed.
Lemma low_bits_ok v n : 0 <= n -> 0 <= low_bits v n < 2 ^ n /\ lsb_bits (Z.to_nat n) (low_bits v n) = lsb_bits (Z.to_nat n) v.
Proof.
  intros H. unfold low_bits. rewrite land_mask by lia. split; [apply Z.mod_pos_bound, pow2_pos; lia|].
  rewrite <- (lsb_mod (Z.to_nat n) v). rewrite Z2Nat.id by lia. reflexivity.
Qed.
Lemma put_low v n x bits : fast_ok x bits -> 0 <= n -> len bits + n <= 64 ->
  fast_ok (put_fast (low_bits v n) n x) (bits ++ lsb_bits (Z.to_nat n) v).
Proof.
  intros F Hn H. destruct (low_bits_ok v n Hn) as [R <-]. apply put_fast_ok; try assumption.
  rewrite (fast_len _ _ F). lia.
Qed.
Lemma match_fast_ok t n d x bits : tables_ok t -> tok_ok (Copy n d) ->
  tok_in (t_sizes0 t) (t_sizes1 t) (Copy n d) -> fast_ok x bits -> len bits <= 7 ->
  fast_ok (match_fast t (n - 3) (d - 1) x) (bits ++ tokb (t_sizes0 t) (t_sizes1 t) (Copy n d)).
Proof.
  intros [] [On Od] [I1 I2] F H. cbn [tok_sym tokb] in *. unfold match_fast.
  destruct (len_facts (n - 3)) as (lb & lx & L1 & L2 & L3 & L4 & L5 & L6); [lia|].
  destruct (dist_facts (d - 1)) as (db & dx & D1 & D2 & D3 & D4 & D5 & D6); [lia|].
  pose proof (code_len_max (t_sizes0 t) (at_index s_tdefl_len_sym (n - 3)) to_max2) as M0.
  pose proof (code_len_max (t_sizes1 t) (dist_sym (d - 1)) to_max3) as M1.
  rewrite !app_assoc.
  apply put_low; [apply put_code; try assumption; [apply put_low; [apply put_code; try assumption; lia|lia|]|]|lia|];
    rewrite ?len_app, ?codeword_len, ?lsb_len by lia; lia.
Qed.
Lemma tokb_max LL DL t : tok_ok t -> Forall (fun x => 0 <= x <= 15) LL -> Forall (fun x => 0 <= x <= 15) DL ->
  len (tokb LL DL t) <= if is_copy t then 48 else 15.
Proof.
  intros O M0 M1. destruct t as [c|n d]; cbn [tokb is_copy].
  - pose proof (code_len_max LL c M0). rewrite codeword_len; lia.
  - destruct O as [On Od].
    destruct (len_facts (n - 3)) as (lb & lx & L1 & L2 & L3 & L4 & L5 & L6); [lia|].
    destruct (dist_facts (d - 1)) as (db & dx & D1 & D2 & D3 & D4 & D5 & D6); [lia|].
    pose proof (code_len_max LL (at_index s_tdefl_len_sym (n - 3)) M0).
    pose proof (code_len_max DL (dist_sym (d - 1)) M1).
    rewrite ?len_app, ?codeword_len, ?lsb_len by lia. lia.
Qed.
