(** DEFLATE data has one meaning: the three classes of DeflateFaults.v exclude each other,
    and a stream has one decoding. Nothing here is about src/miniz. A decoder is
    written down as a function, and every relation of DeflateSpec.v and DeflateFaults.v
    is shown to be what that function says. *)
From Coq Require Import ZArith List Bool Lia.
From Verif Require Import Base BaseFacts DeflateSpec DeflateFaults BitFacts HuffFacts DeflateDecide.
Import ListNotations.
Open Scope Z_scope.

(** ** Symbols *)
Fixpoint strip (a b : list bool) : option (list bool) :=
  match a, b with
  | [], _ => Some b
  | x :: a', y :: b' => if Bool.eqb x y then strip a' b' else None
  | _, [] => None
  end.
Lemma strip_app a b : strip a (a ++ b) = Some b.
Proof. induction a as [|x a IH]; [now destruct b|]. cbn [strip app]. now rewrite eqb_reflx. Qed.
Lemma strip_some a : forall b r, strip a b = Some r -> b = a ++ r.
Proof.
  induction a as [|x a IH]; intros b r H; [destruct b; now injection H as <-|].
  destruct b as [|y b]; [discriminate H|]. cbn [strip] in H. destruct (Bool.eqb x y) eqn:E; [|discriminate H].
  apply eqb_prop in E as ->. cbn [app]. f_equal. now apply IH.
Qed.
Inductive sym := Sym (s : Z) (rest : list bool) | SCut | SNone.
Definition symbols (L : list Z) : list Z := map Z.of_nat (seq 0 (length L)).
Definition matches (L : list Z) (bits : list bool) (s : Z) : bool :=
  (0 <? code_len L s) && match strip (codeword L s) bits with Some _ => true | None => false end.
Definition is_start (L : list Z) (bits : list bool) (s : Z) : bool :=
  (0 <? code_len L s) && match strip bits (codeword L s) with Some _ => true | None => false end.
Definition next_symbol (L : list Z) (bits : list bool) : sym :=
  match find (matches L bits) (symbols L) with
  | Some s => match strip (codeword L s) bits with Some r => Sym s r | None => SNone end
  | None => if existsb (is_start L bits) (symbols L) then SCut else SNone
  end.
Lemma symbols_in L s : In s (symbols L) <-> 0 <= s < len L.
Proof.
  unfold symbols. rewrite in_map_iff. split.
  - intros (n & <- & H). apply in_seq in H. unfold len. lia.
  - intros H. exists (Z.to_nat s). split; [lia|]. apply in_seq. unfold len in H. lia.
Qed.
Lemma next_found L s r : valid_code L -> in_code L s -> next_symbol L (codeword L s ++ r) = Sym s r.
Proof.
  intros V HI. unfold next_symbol. destruct (find _ _) as [t|] eqn:E.
  - apply find_some in E as [H1 H2]. apply symbols_in in H1. unfold matches in H2. apply andb_true_iff in H2 as [H2 H3]. apply Z.ltb_lt in H2.
    destruct (strip (codeword L t) _) as [r'|] eqn:ES; [|discriminate H3]. pose proof (strip_some _ _ _ ES) as HE.
    assert (in_code L t) as HT by (split; assumption).
    assert (s = t) as -> by (eapply (cw_same L (proj1 V) (valid_kraft L V)); [exact HI|exact HT|exact HE]).
    apply app_inv_head in HE as ->. reflexivity.
  - exfalso. pose proof (find_none _ _ E s ltac:(apply symbols_in; apply HI)) as H. unfold matches in H. rewrite strip_app in H.
    destruct HI as [_ HI]. apply Z.ltb_lt in HI. rewrite HI in H. discriminate H.
Qed.
Lemma next_cut L b : valid_code L -> stops_inside L b -> next_symbol L b = SCut.
Proof.
  intros V (s & m & HI & HM & HC). unfold next_symbol. destruct (find _ _) as [t|] eqn:E.
  - exfalso. apply find_some in E as [H1 H2]. apply symbols_in in H1. unfold matches in H2. apply andb_true_iff in H2 as [H2 H3]. apply Z.ltb_lt in H2.
    destruct (strip (codeword L t) b) as [r|] eqn:ES; [|discriminate H3]. apply strip_some in ES. subst b.
    assert (in_code L t) as HT by (split; assumption). rewrite <- app_assoc in HC.
    assert (t = s) as -> by (eapply (prefix_free L t s (r ++ m) (proj1 V) (valid_kraft L V)); eauto).
    rewrite <- (app_nil_r (codeword L s)) in HC at 1. apply app_inv_head in HC. destruct r; [|discriminate HC]. now apply HM.
  - assert (existsb (is_start L b) (symbols L) = true) as ->; [|reflexivity].
    apply existsb_exists. exists s. split; [apply symbols_in; apply HI|]. unfold is_start. rewrite HC, strip_app. destruct HI as [_ HI]. apply Z.ltb_lt in HI. now rewrite HI.
Qed.
Lemma next_none L b : meaningless L b -> next_symbol L b = SNone.
Proof.
  intros (_ & HN & HS). unfold next_symbol. destruct (find _ _) as [t|] eqn:E.
  - exfalso. apply find_some in E as [H1 H2]. apply symbols_in in H1. unfold matches in H2. apply andb_true_iff in H2 as [H2 H3]. apply Z.ltb_lt in H2.
    destruct (strip (codeword L t) b) as [r|] eqn:ES; [|discriminate H3]. apply strip_some in ES. apply (HN t r); [split; assumption|exact ES].
  - destruct (existsb _ _) eqn:EX; [|reflexivity]. exfalso. apply existsb_exists in EX as (s & H1 & H2). apply symbols_in in H1.
    unfold is_start in H2. apply andb_true_iff in H2 as [H2 H3]. apply Z.ltb_lt in H2.
    destruct (strip b (codeword L s)) as [r|] eqn:ES; [|discriminate H3]. apply strip_some in ES.
    assert (in_code L s) as HI by (split; assumption). destruct r as [|x r].
    + apply (HN s []); [exact HI|]. rewrite ES, !app_nil_r. reflexivity.
    + apply HS. exists s, (x :: r). split; [exact HI|]. split; [discriminate|exact ES].
Qed.

(** ** Tokens *)
Inductive tok := TTok (t : token) (rest : list bool) | TEnd (rest : list bool) | TCut | TNone.
Definition next_token (LL DL : list Z) (out : bytes) (bits : list bool) : tok :=
  match next_symbol LL bits with
  | SCut => TCut
  | SNone => TNone
  | Sym s r =>
      if s <? 256 then TTok (Lit s) r
      else if s =? 256 then TEnd r
      else match znth length_codes (s - 257) with
           | None => TNone
           | Some (lb, lx) =>
               if len r <? lx then TCut
               else match next_symbol DL (zdrop lx r) with
                    | SCut => TCut
                    | SNone => TNone
                    | Sym j r2 =>
                        match znth distance_codes j with
                        | None => TNone
                        | Some (db, dx) =>
                            if len r2 <? dx then TCut
                            else if len out <? db + bval (ztake dx r2) then TNone
                            else TTok (Copy (lb + bval (ztake lx r)) (db + bval (ztake dx r2))) (zdrop dx r2)
                        end
                    end
           end
  end.
Lemma length_code_range k lb lx : znth length_codes k = Some (lb, lx) -> 0 <= k < 29 /\ 0 <= lx.
Proof.
  intros H. assert (0 <= k < 29) as HK.
  { unfold znth in H. destruct (k <? 0) eqn:E; [discriminate H|]. apply Z.ltb_ge in E. assert (Z.to_nat k < 29)%nat by (apply (nth_error_Some length_codes); rewrite H; discriminate). lia. }
  split; [exact HK|]. destruct (length_code_some k HK) as (a & b & E & Hb). rewrite H in E. injection E as <- <-. exact Hb.
Qed.
Lemma distance_code_range k lb lx : znth distance_codes k = Some (lb, lx) -> 0 <= k < 30 /\ 0 <= lx /\ 1 <= lb.
Proof.
  intros H. assert (0 <= k < 30) as HK.
  { unfold znth in H. destruct (k <? 0) eqn:E; [discriminate H|]. apply Z.ltb_ge in E. assert (Z.to_nat k < 30)%nat by (apply (nth_error_Some distance_codes); rewrite H; discriminate). lia. }
  split; [exact HK|]. destruct (distance_code_some k HK) as (a & b & E & Hb). rewrite H in E. injection E as <- <-. exact Hb.
Qed.
Lemma take_lsb n v r : 0 <= n -> 0 <= v < 2 ^ n -> bval (ztake n (lsb_bits (Z.to_nat n) v ++ r)) = v /\ zdrop n (lsb_bits (Z.to_nat n) v ++ r) = r.
Proof.
  intros Hn Hv. assert (len (lsb_bits (Z.to_nat n) v) = n) as E by (rewrite lsb_len; lia).
  rewrite ztake_app_exact, zdrop_app_exact by (symmetry; exact E). split; [|reflexivity]. rewrite bval_lsb, Z2Nat.id by lia. apply Z.mod_small. lia.
Qed.
Section Tokens.
Variables (LL DL : list Z).
Hypothesis VL : valid_code LL.
Hypothesis VD : valid_code DL.
Lemma after_length out k lb lx r : znth length_codes k = Some (lb, lx) -> in_code LL (257 + k) ->
  next_token LL DL out (codeword LL (257 + k) ++ r) =
  if len r <? lx then TCut
  else match next_symbol DL (zdrop lx r) with
       | SCut => TCut
       | SNone => TNone
       | Sym j r2 =>
           match znth distance_codes j with
           | None => TNone
           | Some (db, dx) =>
               if len r2 <? dx then TCut
               else if len out <? db + bval (ztake dx r2) then TNone
               else TTok (Copy (lb + bval (ztake lx r)) (db + bval (ztake dx r2))) (zdrop dx r2)
           end
       end.
Proof.
  intros HZ HI. destruct (length_code_range _ _ _ HZ) as [HK _]. unfold next_token. rewrite next_found by assumption.
  assert (257 + k <? 256 = false) as -> by lia. assert (257 + k =? 256 = false) as -> by lia.
  replace (257 + k - 257) with k by lia. now rewrite HZ.
Qed.
Lemma next_lit out c r : 0 <= c < 256 -> in_code LL c -> next_token LL DL out (codeword LL c ++ r) = TTok (Lit c) r.
Proof. intros Hc HI. unfold next_token. rewrite next_found by assumption. now assert (c <? 256 = true) as -> by lia. Qed.
Lemma next_end out r : in_code LL 256 -> next_token LL DL out (codeword LL 256 ++ r) = TEnd r.
Proof. intros HI. unfold next_token. now rewrite next_found by assumption. Qed.
Lemma next_copy out n d b r : token_bits LL DL (Copy n d) b ->
  next_token LL DL out (b ++ r) = if len out <? d then TNone else TTok (Copy n d) r.
Proof.
  intros H. inversion H as [|k lb lx le j db dx de H1 H2 H3 H4 H5 H6 E1 E2]; subst. rewrite <- !app_assoc, (after_length out k lb lx) by assumption.
  destruct (length_code_range _ _ _ H1) as [_ Hlx]. destruct (distance_code_range _ _ _ H4) as (_ & Hdx & _).
  destruct (take_lsb lx le (codeword DL j ++ lsb_bits (Z.to_nat dx) de ++ r) Hlx H2) as [E1 E2]. rewrite E1, E2.
  assert (len (lsb_bits (Z.to_nat lx) le ++ codeword DL j ++ lsb_bits (Z.to_nat dx) de ++ r) <? lx = false) as ->.
  { apply Z.ltb_ge. rewrite len_app, lsb_len. pose proof (len_nonneg _ (codeword DL j ++ lsb_bits (Z.to_nat dx) de ++ r)). lia. }
  rewrite next_found by assumption. rewrite H4. destruct (take_lsb dx de r Hdx H5) as [E3 E4]. rewrite E3, E4.
  assert (len (lsb_bits (Z.to_nat dx) de ++ r) <? dx = false) as -> by (apply Z.ltb_ge; rewrite len_app, lsb_len; pose proof (len_nonneg _ r); lia).
  reflexivity.
Qed.
Lemma next_token_cut out b : token_cut LL DL b -> next_token LL DL out b = TCut.
Proof.
  intros H. inversion H as [b' H1|k lb lx e H1 H2 H3|k lb lx le b' H1 H2 H3 H4|k lb lx le j db dx e H1 H2 H3 H4 H5 H6]; subst.
  - unfold next_token. now rewrite next_cut.
  - rewrite (after_length out k lb lx) by assumption. now assert (len e <? lx = true) as -> by lia.
  - rewrite (after_length out k lb (len le)) by assumption.
    assert (len (le ++ b') <? len le = false) as -> by (apply Z.ltb_ge; rewrite len_app; pose proof (len_nonneg _ b'); lia).
    rewrite zdrop_app_exact by reflexivity. now rewrite next_cut.
  - rewrite (after_length out k lb (len le)) by assumption.
    assert (len (le ++ codeword DL j ++ e) <? len le = false) as -> by (apply Z.ltb_ge; rewrite len_app; pose proof (len_nonneg _ (codeword DL j ++ e)); lia).
    rewrite zdrop_app_exact by reflexivity. rewrite next_found by assumption. rewrite H4. now assert (len e <? dx = true) as -> by lia.
Qed.
Lemma unknown_length s : 286 <= s -> znth length_codes (s - 257) = None.
Proof.
  intros H. destruct (znth length_codes (s - 257)) as [[lb lx]|] eqn:E; [|reflexivity]. destruct (length_code_range _ _ _ E). lia.
Qed.
Lemma unknown_distance s : 30 <= s -> znth distance_codes s = None.
Proof.
  intros H. destruct (znth distance_codes s) as [[lb lx]|] eqn:E; [|reflexivity]. destruct (distance_code_range _ _ _ E). lia.
Qed.
Lemma next_token_none out b : token_senseless LL DL out b -> next_token LL DL out b = TNone.
Proof.
  intros H. inversion H as [b' H1|s b' H1 H2|k lb lx le b' H1 H2 H3 H4|k lb lx le s b' H1 H2 H3 H4 H5|n d b' m H1 H2]; subst.
  - unfold next_token. now rewrite next_none.
  - unfold next_token. rewrite next_found by assumption. assert (s <? 256 = false) as -> by lia. assert (s =? 256 = false) as -> by lia. now rewrite unknown_length.
  - rewrite (after_length out k lb (len le)) by assumption.
    assert (len (le ++ b') <? len le = false) as -> by (apply Z.ltb_ge; rewrite len_app; pose proof (len_nonneg _ b'); lia).
    rewrite zdrop_app_exact by reflexivity. now rewrite next_none.
  - rewrite (after_length out k lb (len le)) by assumption.
    assert (len (le ++ codeword DL s ++ b') <? len le = false) as -> by (apply Z.ltb_ge; rewrite len_app; pose proof (len_nonneg _ (codeword DL s ++ b')); lia).
    rewrite zdrop_app_exact by reflexivity. rewrite next_found by assumption. now rewrite unknown_distance.
  - rewrite (next_copy out n d) by assumption. now assert (len out <? d = true) as -> by lia.
Qed.

(** Blocks of tokens. *)
Inductive verdict := Good (out : bytes) (rest : list bool) | Bad | Odd.
Definition expand1 (out : bytes) (t : token) : bytes := match t with Lit c => out ++ [c] | Copy n d => copy (Z.to_nat n) d out end.
Fixpoint read_tokens (fuel : nat) (out : bytes) (bits : list bool) : verdict :=
  match fuel with
  | O => Odd
  | S f => match next_token LL DL out bits with
           | TTok t r => read_tokens f (expand1 out t) r
           | TEnd r => Good out r
           | TCut => Bad
           | TNone => Odd
           end
  end.
Lemma token_pos t b : token_bits LL DL t b -> (1 <= length b)%nat.
Proof.
  intros H. inversion H; subst; rewrite ?app_length; (match goal with H : in_code LL ?s |- _ => pose proof (codeword_pos LL s H) end; lia).
Qed.
Lemma tokens_first out t b ts o r : token_bits LL DL t b -> expands out (t :: ts) o ->
  next_token LL DL out (b ++ r) = TTok t r /\ expands (expand1 out t) ts o.
Proof.
  intros H HE. destruct t as [c|n d].
  - inversion HE; subst. split; [|assumption]. inversion H; subst. now apply next_lit.
  - inversion HE; subst. split; [|assumption]. rewrite (next_copy out n d) by assumption. now assert (len out <? d = false) as -> by lia.
Qed.
Lemma tokens_read : forall ts bs, tokens_bits LL DL ts bs -> forall fuel out o rest, expands out ts o -> (length bs < fuel)%nat ->
  read_tokens fuel out (bs ++ rest) = Good o rest.
Proof.
  intros ts bs H. induction H as [HI|t b ts bs Ht Hts IH]; intros fuel out o rest HE Hf; (destruct fuel as [|fuel]; [lia|]); cbn [read_tokens].
  - rewrite next_end by assumption. inversion HE; subst. reflexivity.
  - rewrite <- app_assoc. destruct (tokens_first out t b ts o (bs ++ rest) Ht HE) as [-> HE2]. apply IH; [exact HE2|].
    rewrite app_length in Hf. pose proof (token_pos t b Ht). lia.
Qed.
Lemma so_far_read : forall ts bs, tokens_so_far LL DL ts bs -> forall fuel out o b, expands out ts o -> (length bs < fuel)%nat ->
  exists f, (0 < f)%nat /\ read_tokens fuel out (bs ++ b) = read_tokens f o b.
Proof.
  intros ts bs H. induction H as [|t b ts bs Ht Hts IH]; intros fuel out o b' HE Hf.
  - inversion HE; subst. exists fuel. split; [cbn in Hf; lia|reflexivity].
  - destruct fuel as [|fuel]; [lia|]. cbn [read_tokens]. rewrite <- app_assoc. destruct (tokens_first out t b ts o (bs ++ b') Ht HE) as [-> HE2].
    apply IH; [exact HE2|]. rewrite app_length in Hf. pose proof (token_pos t b Ht). lia.
Qed.
Lemma tokens_cut ts bs fuel out o b : tokens_so_far LL DL ts bs -> expands out ts o -> token_cut LL DL b -> (length (bs ++ b) < fuel)%nat ->
  read_tokens fuel out (bs ++ b) = Bad.
Proof.
  intros H HE HC Hf. rewrite app_length in Hf. destruct (so_far_read ts bs H fuel out o b HE ltac:(lia)) as (f & Hf2 & ->).
  destruct f as [|f]; [lia|]. cbn [read_tokens]. now rewrite next_token_cut.
Qed.
Lemma tokens_odd ts bs fuel out o b : tokens_so_far LL DL ts bs -> expands out ts o -> token_senseless LL DL o b -> (length (bs ++ b) < fuel)%nat ->
  read_tokens fuel out (bs ++ b) = Odd.
Proof.
  intros H HE HC Hf. rewrite app_length in Hf. destruct (so_far_read ts bs H fuel out o b HE ltac:(lia)) as (f & Hf2 & ->).
  destruct f as [|f]; [lia|]. cbn [read_tokens]. now rewrite next_token_none.
Qed.
End Tokens.

(** ** Code lengths *)
Inductive lverdict := LGood (l : list Z) (rest : list bool) | LBad | LOdd.
Definition repeats (s : Z) : Z * Z := if s =? 16 then (3, 2) else if s =? 17 then (3, 3) else (11, 7).
Fixpoint read_lengths (CL : list Z) (total : Z) (fuel : nat) (acc : list Z) (bits : list bool) : lverdict :=
  match fuel with
  | O => LOdd
  | S f =>
      if total <=? len acc then LGood acc bits
      else match next_symbol CL bits with
           | SCut => LBad
           | SNone => LOdd
           | Sym s r =>
               if s <? 16 then read_lengths CL total f (acc ++ [s]) r
               else if (s =? 16) && (len acc =? 0) then LBad
               else let '(base, ex) := repeats s in
                    if len r <? ex then LBad
                    else if total <? len acc + (base + bval (ztake ex r)) then LBad
                    else read_lengths CL total f (acc ++ zrepeat (if s =? 16 then last acc 0 else 0) (base + bval (ztake ex r))) (zdrop ex r)
           end
  end.
Lemma lengths_grow CL l b r : lengths_bits CL l b r -> len l <= len r.
Proof.
  intros H. induction H as [l|l x b r _ _ _ IH|l x e b r _ He _ IH|l e b r _ He _ IH|l e b r _ He _ IH]; [lia| | | |].
  - rewrite len_app, len_cons, len_nil in IH. lia.
  - rewrite app_assoc, len_app, len_zrepeat in IH. lia.
  - rewrite len_app, len_zrepeat in IH. lia.
  - rewrite len_app, len_zrepeat in IH. lia.
Qed.
Section Lengths.
Variables (CL : list Z) (total : Z).
Hypothesis V : valid_code CL.
Lemma read_repeat f acc s e b : in_code CL s -> 16 <= s <= 18 -> (s = 16 -> acc <> []) -> 0 <= e < 2 ^ snd (repeats s) ->
  len acc < total ->
  read_lengths CL total (S f) acc (codeword CL s ++ lsb_bits (Z.to_nat (snd (repeats s))) e ++ b) =
  if total <? len acc + (fst (repeats s) + e) then LBad
  else read_lengths CL total f (acc ++ zrepeat (if s =? 16 then last acc 0 else 0) (fst (repeats s) + e)) b.
Proof.
  intros HI Hs Ha He Ht. cbn [read_lengths]. assert (total <=? len acc = false) as -> by lia. rewrite next_found by assumption.
  assert (s <? 16 = false) as -> by lia.
  assert ((s =? 16) && (len acc =? 0) = false) as ->.
  { apply andb_false_iff. destruct (Z.eq_dec s 16) as [->|Hn]; [right|left; lia]. apply Z.eqb_neq. intros E. apply (Ha eq_refl). now apply len_0_nil. }
  destruct (repeats s) as [base ex] eqn:ER. cbn [fst snd] in *.
  assert (0 <= ex) as Hex by (unfold repeats in ER; destruct (s =? 16); [injection ER as <- <-; lia|]; destruct (s =? 17); injection ER as <- <-; lia).
  destruct (take_lsb ex e b Hex He) as [E1 E2]. rewrite E1, E2.
  assert (len (lsb_bits (Z.to_nat ex) e ++ b) <? ex = false) as -> by (apply Z.ltb_ge; rewrite len_app, lsb_len; pose proof (len_nonneg _ b); lia).
  reflexivity.
Qed.
Lemma lengths_read l bits all : lengths_bits CL l bits all -> len all <= total -> forall fuel rest, (length bits < fuel)%nat ->
  exists f, (0 < f)%nat /\ read_lengths CL total fuel l (bits ++ rest) = read_lengths CL total f all rest.
Proof.
  intros H HT. induction H as [l|l x b r Hx HI H IH|l x e b r HI He H IH|l e b r HI He H IH|l e b r HI He H IH]; intros fuel rest Hf.
  - exists fuel. split; [cbn in Hf; lia|reflexivity].
  - destruct fuel as [|fuel]; [lia|]. specialize (IH HT fuel rest). pose proof (lengths_grow _ _ _ _ H) as HG. rewrite len_app, len_cons, len_nil in HG.
    pose proof (codeword_pos CL x HI). rewrite app_length in Hf. destruct IH as (f & Hf2 & E); [lia|]. exists f. split; [exact Hf2|].
    cbn [read_lengths]. assert (total <=? len l = false) as -> by lia. rewrite <- app_assoc, next_found by assumption. now assert (x <? 16 = true) as -> by lia.
  - destruct fuel as [|fuel]; [lia|]. specialize (IH HT fuel rest). pose proof (lengths_grow _ _ _ _ H) as HG. rewrite app_assoc, len_app, len_zrepeat in HG.
    pose proof (codeword_pos CL 16 HI). rewrite !app_length in Hf. destruct IH as (f & Hf2 & E); [lia|]. exists f. split; [exact Hf2|].
    rewrite <- !app_assoc. change (lsb_bits 2 e) with (lsb_bits (Z.to_nat (snd (repeats 16))) e). rewrite read_repeat; [|assumption|lia|intros _ HX; now apply app_eq_nil in HX|exact He|lia].
    change (fst (repeats 16)) with 3. assert (total <? len (l ++ [x]) + (3 + e) = false) as -> by (apply Z.ltb_ge; lia).
    change (16 =? 16) with true. cbv iota. rewrite last_last, <- app_assoc. exact E.
  - destruct fuel as [|fuel]; [lia|]. specialize (IH HT fuel rest). pose proof (lengths_grow _ _ _ _ H) as HG. rewrite len_app, len_zrepeat in HG.
    pose proof (codeword_pos CL 17 HI). rewrite !app_length in Hf. destruct IH as (f & Hf2 & E); [lia|]. exists f. split; [exact Hf2|].
    rewrite <- !app_assoc. change (lsb_bits 3 e) with (lsb_bits (Z.to_nat (snd (repeats 17))) e). rewrite read_repeat; [|assumption|lia|lia|exact He|lia].
    change (fst (repeats 17)) with 3. assert (total <? len l + (3 + e) = false) as -> by (apply Z.ltb_ge; lia). exact E.
  - destruct fuel as [|fuel]; [lia|]. specialize (IH HT fuel rest). pose proof (lengths_grow _ _ _ _ H) as HG. rewrite len_app, len_zrepeat in HG.
    pose proof (codeword_pos CL 18 HI). rewrite !app_length in Hf. destruct IH as (f & Hf2 & E); [lia|]. exists f. split; [exact Hf2|].
    rewrite <- !app_assoc. change (lsb_bits 7 e) with (lsb_bits (Z.to_nat (snd (repeats 18))) e). rewrite read_repeat; [|assumption|lia|lia|exact He|lia].
    change (fst (repeats 18)) with 11. assert (total <? len l + (11 + e) = false) as -> by (apply Z.ltb_ge; lia). exact E.
Qed.
Lemma repeat_code s base ex : In (s, base, ex) repeat_codes -> 16 <= s <= 18 /\ repeats s = (base, ex).
Proof. cbn. intros [H|[H|[H|[]]]]; injection H as <- <- <-; (split; [lia|reflexivity]). Qed.
Lemma lengths_bad f l b : len l < total -> lengths_fault CL total l b -> read_lengths CL total (S f) l b = LBad.
Proof.
  intros HL H. inversion H as [b' H1|b' H1 H2|s base ex e H1 H2 H3|s base ex e b' H1 H2 H3 H4]; subst.
  - cbn [read_lengths]. assert (total <=? len l = false) as -> by lia. now rewrite next_cut.
  - cbn [read_lengths]. rewrite len_nil. rewrite len_nil in HL. assert (total <=? 0 = false) as -> by lia. now rewrite next_found by assumption.
  - destruct (repeat_code _ _ _ H1) as [Hs ER]. cbn [read_lengths]. assert (total <=? len l = false) as -> by lia. rewrite next_found by assumption.
    assert (s <? 16 = false) as -> by lia. rewrite ER. destruct (_ && _); [reflexivity|]. now assert (len e <? ex = true) as -> by lia.
  - destruct (repeat_code _ _ _ H1) as [Hs ER]. destruct (Z.eq_dec s 16) as [->|Hn].
    + destruct l as [|x l].
      * cbn [read_lengths]. rewrite len_nil in *. assert (total <=? 0 = false) as -> by lia. now rewrite next_found by assumption.
      * pose proof (read_repeat f (x :: l) 16 e b' H2 ltac:(lia) ltac:(discriminate)) as HR. rewrite ER in HR. cbn [fst snd] in HR.
        rewrite HR by lia. now assert (total <? len (x :: l) + (base + e) = true) as -> by lia.
    + pose proof (read_repeat f l s e b' H2 ltac:(lia) ltac:(congruence)) as HR. rewrite ER in HR. cbn [fst snd] in HR.
      rewrite HR by lia. now assert (total <? len l + (base + e) = true) as -> by lia.
Qed.
Lemma lengths_odd f l b : len l < total -> meaningless CL b -> read_lengths CL total (S f) l b = LOdd.
Proof. intros HL H. cbn [read_lengths]. assert (total <=? len l = false) as -> by lia. now rewrite next_none. Qed.
End Lengths.

(** The lengths of the code-length code are determined by their bits. *)
Lemma lsb_inj n x y : 0 <= x < 2 ^ Z.of_nat n -> 0 <= y < 2 ^ Z.of_nat n -> lsb_bits n x = lsb_bits n y -> x = y.
Proof. intros Hx Hy E. apply (f_equal bval) in E. rewrite !bval_lsb, !Z.mod_small in E by assumption. exact E. Qed.
Lemma app_inv_len {A} (a b c d : list A) : length a = length c -> a ++ b = c ++ d -> a = c /\ b = d.
Proof.
  revert c. induction a as [|x a IH]; intros [|y c] HL E; try discriminate HL; [now split|].
  cbn [app] in E. injection E as -> E. destruct (IH c ltac:(cbn in HL; lia) E) as [-> ->]. now split.
Qed.
Lemma fields_same CL CL' T : forall r r', Forall (fun x => 0 <= x <= 7) CL -> Forall (fun x => 0 <= x <= 7) CL' ->
  flat_map (fun s => lsb_bits 3 (code_len CL s)) T ++ r = flat_map (fun s => lsb_bits 3 (code_len CL' s)) T ++ r' ->
  (forall s, In s T -> code_len CL s = code_len CL' s) /\ r = r'.
Proof.
  intros r r' HC HC'.
  assert (forall K s, Forall (fun x => 0 <= x <= 7) K -> 0 <= code_len K s < 2 ^ Z.of_nat 3) as HR.
  { intros K s HK. unfold code_len. change (2 ^ Z.of_nat 3) with 8. destruct (nth_in_or_default (Z.to_nat s) K 0) as [HI| ->]; [|lia].
    eapply Forall_forall in HK; [|exact HI]. cbv beta in HK. lia. }
  induction T as [|t T IH]; cbn [flat_map app]; intros E; [split; [intros s []|exact E]|].
  rewrite <- !app_assoc in E. apply app_inv_len in E as [E1 E2]; [|now rewrite !lsb_length].
  destruct (IH E2) as [H1 H2]. split; [|exact H2]. intros s [<-|Hs]; [|now apply H1]. apply (lsb_inj 3); auto.
Qed.
Lemma start_same nl nd nc CL h nl' nd' nc' CL' h' r r' :
  dynamic_start nl nd nc CL h -> dynamic_start nl' nd' nc' CL' h' -> h ++ r = h' ++ r' ->
  nl = nl' /\ nd = nd' /\ nc = nc' /\ CL = CL' /\ r = r'.
Proof.
  intros (H1 & H2 & H3 & H4 & H5 & H6 & ->) (G1 & G2 & G3 & G4 & G5 & G6 & ->) E. rewrite <- !app_assoc in E.
  apply app_inv_len in E as [E1 E]; [|now rewrite !lsb_length]. apply app_inv_len in E as [E2 E]; [|now rewrite !lsb_length].
  apply app_inv_len in E as [E3 E]; [|now rewrite !lsb_length].
  apply lsb_inj in E1; [|change (2 ^ Z.of_nat 5) with 32; lia|change (2 ^ Z.of_nat 5) with 32; lia].
  apply lsb_inj in E2; [|change (2 ^ Z.of_nat 5) with 32; lia|change (2 ^ Z.of_nat 5) with 32; lia].
  apply lsb_inj in E3; [|change (2 ^ Z.of_nat 4) with 16; lia|change (2 ^ Z.of_nat 4) with 16; lia].
  assert (nc = nc') as <- by lia. apply fields_same in E as [E4 ->]; [|assumption|assumption].
  split; [lia|]. split; [lia|]. split; [reflexivity|]. split; [|reflexivity].
  assert (forall s, 0 <= s < 19 -> code_len CL s = code_len CL' s) as HS.
  { intros s Hs. assert (In s length_order) as HI.
    { assert (s = 0 \/ s = 1 \/ s = 2 \/ s = 3 \/ s = 4 \/ s = 5 \/ s = 6 \/ s = 7 \/ s = 8 \/ s = 9 \/ s = 10 \/ s = 11 \/ s = 12 \/ s = 13 \/ s = 14 \/ s = 15 \/ s = 16 \/ s = 17 \/ s = 18) as HD by lia.
      cbn. intuition. }
    rewrite <- (ztake_zdrop _ nc length_order) in HI. apply in_app_or in HI as [HI|HI]; [now apply E4|].
    apply In_nth_error in HI as (k & HK). assert (znth length_order (nc + Z.of_nat k) = Some s) as HZ.
    { unfold znth. assert (nc + Z.of_nat k <? 0 = false) as -> by (apply Z.ltb_ge; lia). rewrite <- (ztake_zdrop _ nc length_order).
      assert (length (ztake nc length_order) = Z.to_nat nc) as HLn by (assert (len (ztake nc length_order) = nc) by (rewrite len_ztake; change (len length_order) with 19; lia); unfold len in *; lia).
      rewrite nth_error_app2 by (rewrite HLn; lia). rewrite HLn. replace (Z.to_nat (nc + Z.of_nat k) - Z.to_nat nc)%nat with k by lia. exact HK. }
    rewrite (H6 (nc + Z.of_nat k) ltac:(lia) s HZ), (G6 (nc + Z.of_nat k) ltac:(lia) s HZ). reflexivity. }
  apply (nth_ext _ _ 0 0); [unfold len in *; lia|]. intros n Hn. specialize (HS (Z.of_nat n)). unfold code_len in HS. rewrite Nat2Z.id in HS. apply HS. unfold len in *. lia.
Qed.

(** ** Blocks *)
Lemma valid_dec L : {valid_code L} + {~ valid_code L}.
Proof.
  unfold valid_code. destruct (Forall_dec (fun x => 0 <= x <= 15) ltac:(intros x; destruct (Z_le_dec 0 x), (Z_le_dec x 15); [left; lia|right; lia..]) L) as [H|H].
  - destruct (Z.eq_dec (zsum (map space_of L)) (2 ^ 15)); [left; auto|].
    destruct (Z_le_dec (used_symbols L) 1); [left; auto|]. right. intros [_ [E|E]]; [congruence|lia].
  - right. intros [E _]. now apply H.
Qed.
Definition read_dynamic (nl nd : Z) (CL : list Z) (out : bytes) (b : list bool) : verdict :=
  if valid_dec CL then
    match read_lengths CL (nl + nd) (S (length b)) [] b with
    | LBad => Bad
    | LOdd => Odd
    | LGood l r =>
        if valid_dec (ztake nl l) then
          if valid_dec (zdrop nl l) then read_tokens (ztake nl l) (zdrop nl l) (S (length r)) out r else Bad
        else Bad
    end
  else Bad.
Inductive block_verdict (pos : Z) (out : bytes) : list bool -> verdict -> Prop :=
| VShort b : len b < 2 -> block_verdict pos out b Bad
| VReserved b : block_verdict pos out (lsb_bits 2 3 ++ b) Bad
| VStored_short pad b : (pos + 2 + len pad) mod 8 = 0 -> len pad < 8 -> len b < 32 ->
    block_verdict pos out (lsb_bits 2 0 ++ pad ++ b) Bad
| VStored_differ pad n m b : (pos + 2 + len pad) mod 8 = 0 -> len pad < 8 ->
    0 <= n < 65536 -> 0 <= m < 65536 -> m <> 65535 - n ->
    block_verdict pos out (lsb_bits 2 0 ++ pad ++ lsb_bits 16 n ++ lsb_bits 16 m ++ b) Bad
| VStored_cut pad n b : (pos + 2 + len pad) mod 8 = 0 -> len pad < 8 -> 0 <= n < 65536 -> len b < 8 * n ->
    block_verdict pos out (lsb_bits 2 0 ++ pad ++ lsb_bits 16 n ++ lsb_bits 16 (65535 - n) ++ b) Bad
| VStored pad data more : (pos + 2 + len pad) mod 8 = 0 -> len pad < 8 -> len data < 65536 -> bytes_ok data ->
    block_verdict pos out (lsb_bits 2 0 ++ pad ++ lsb_bits 16 (len data) ++ lsb_bits 16 (65535 - len data) ++ bits_of data ++ more)
      (Good (out ++ data) more)
| VFixed b : block_verdict pos out (lsb_bits 2 1 ++ b) (read_tokens fixed_lengths fixed_distances (S (length b)) out b)
| VCounts b : len b < 14 -> block_verdict pos out (lsb_bits 2 2 ++ b) Bad
| VCode_short nl nd nc b : 257 <= nl <= 288 -> 1 <= nd <= 32 -> 4 <= nc <= 19 -> len b < 3 * nc ->
    block_verdict pos out (lsb_bits 2 2 ++ lsb_bits 5 (nl - 257) ++ lsb_bits 5 (nd - 1) ++ lsb_bits 4 (nc - 4) ++ b) Bad
| VDynamic nl nd nc CL h b : dynamic_start nl nd nc CL h ->
    block_verdict pos out (lsb_bits 2 2 ++ h ++ b) (read_dynamic nl nd CL out b).

Lemma dynamic_lengths nl nd CL bl l b : valid_code CL -> lengths_bits CL [] bl l -> len l <= nl + nd ->
  exists f, read_lengths CL (nl + nd) (S (length (bl ++ b))) [] (bl ++ b) = read_lengths CL (nl + nd) (S f) l b.
Proof.
  intros V H HL. destruct (lengths_read CL (nl + nd) V [] bl l H HL (S (length (bl ++ b))) b) as (f & Hf & E); [rewrite app_length; lia|].
  destruct f as [|f]; [lia|]. now exists f.
Qed.
Lemma dynamic_codes nl nd CL out bl LL DL b : valid_code CL -> lengths_bits CL [] bl (LL ++ DL) -> len LL = nl -> len DL = nd ->
  read_dynamic nl nd CL out (bl ++ b) =
  (if valid_dec LL then if valid_dec DL then read_tokens LL DL (S (length b)) out b else Bad else Bad).
Proof.
  intros V H HL HD. unfold read_dynamic. destruct (valid_dec CL) as [_|N]; [|contradiction].
  destruct (dynamic_lengths nl nd CL bl _ b V H ltac:(rewrite len_app; lia)) as (f & ->). cbn [read_lengths].
  assert (nl + nd <=? len (LL ++ DL) = true) as -> by (apply Z.leb_le; rewrite len_app; lia).
  rewrite ztake_app_exact, zdrop_app_exact by congruence. reflexivity.
Qed.
Lemma good_block pos out b r more : block_bits pos out b r -> block_verdict pos out (b ++ more) (Good r more).
Proof.
  intros H. destruct H as [pad data H1 H2 H3 H4|ts bs r H1 H2|nl nd nc CL lens cls LL DL ts bs r H1 H2 H3 H4 H5 H6 H7 H8 H9 H10 H11 H12 H13 H14 H15].
  - rewrite <- !app_assoc. now apply VStored.
  - rewrite <- app_assoc. replace (Good r more) with (read_tokens fixed_lengths fixed_distances (S (length (bs ++ more))) out (bs ++ more)); [apply VFixed|].
    destruct fixed_valid as (F1 & F2 & _). eapply tokens_read; eauto. rewrite app_length. lia.
  - set (h := lsb_bits 5 (nl - 257) ++ lsb_bits 5 (nd - 1) ++ lsb_bits 4 (nc - 4) ++ cls).
    replace ((lsb_bits 2 2 ++ lsb_bits 5 (nl - 257) ++ lsb_bits 5 (nd - 1) ++ lsb_bits 4 (nc - 4) ++ cls ++ lens ++ bs) ++ more)
      with (lsb_bits 2 2 ++ h ++ lens ++ bs ++ more) by (unfold h; rewrite <- !app_assoc; reflexivity).
    replace (Good r more) with (read_dynamic nl nd CL out (lens ++ bs ++ more)).
    + apply (VDynamic pos out nl nd nc). unfold h, dynamic_start. rewrite H11. auto 10.
    + rewrite (dynamic_codes nl nd CL out lens LL DL) by assumption. destruct (valid_dec LL) as [V1|]; [|contradiction]. destruct (valid_dec DL) as [V2|]; [|contradiction].
      eapply tokens_read; eauto. rewrite app_length. lia.
Qed.
Lemma bad_block pos out b r : block_fault pos out b r -> block_verdict pos out b Bad.
Proof.
  intros H. destruct H as [b H|b|pad b H1 H2 H3|pad n m b H1 H2 H3 H4 H5|pad n data H1 H2 H3 H4|ts bs b r H1 H2 H3|b H|nl nd nc b H1 H2 H3 H4|nl nd nc CL h b H1 H2|nl nd nc CL h bl l b H1 H2 H3 H4 H5|nl nd nc CL h bl LL DL b H1 H2 H3 H4 H5 H6|nl nd nc CL h bl LL DL ts bs b r H1 H2 H3 H4 H5 H6 H7 H8 H9 H10].
  - now apply VShort.
  - apply VReserved.
  - now apply VStored_short.
  - now apply VStored_differ.
  - apply VStored_cut; auto; [pose proof (len_nonneg _ data); lia|]. rewrite bits_of_len. lia.
  - replace Bad with (read_tokens fixed_lengths fixed_distances (S (length (bs ++ b))) out (bs ++ b)); [apply VFixed|].
    destruct fixed_valid as (F1 & F2 & _). eapply tokens_cut; eauto.
  - now apply VCounts.
  - now apply VCode_short.
  - replace Bad with (read_dynamic nl nd CL out b); [now apply (VDynamic pos out nl nd nc)|]. unfold read_dynamic. now destruct (valid_dec CL).
  - replace Bad with (read_dynamic nl nd CL out (bl ++ b)); [now apply (VDynamic pos out nl nd nc)|]. unfold read_dynamic. destruct (valid_dec CL) as [_|]; [|contradiction].
    destruct (dynamic_lengths nl nd CL bl l b H2 H3 ltac:(lia)) as (f & ->). now rewrite lengths_bad.
  - replace Bad with (read_dynamic nl nd CL out (bl ++ b)); [now apply (VDynamic pos out nl nd nc)|]. rewrite (dynamic_codes nl nd CL out bl LL DL) by assumption.
    destruct (valid_dec LL); [|reflexivity]. destruct (valid_dec DL); [|reflexivity]. now destruct H6.
  - replace Bad with (read_dynamic nl nd CL out (bl ++ bs ++ b)); [now apply (VDynamic pos out nl nd nc)|]. rewrite (dynamic_codes nl nd CL out bl LL DL) by assumption.
    destruct (valid_dec LL) as [V1|]; [|contradiction]. destruct (valid_dec DL) as [V2|]; [|contradiction]. eapply tokens_cut; eauto.
Qed.
Lemma odd_block pos out b : block_senseless out b -> block_verdict pos out b Odd.
Proof.
  intros H. destruct H as [ts bs b r H1 H2 H3|nl nd nc CL h bl l b H1 H2 H3 H4 H5|nl nd nc CL h bl LL DL ts bs b r H1 H2 H3 H4 H5 H6 H7 H8 H9 H10].
  - replace Odd with (read_tokens fixed_lengths fixed_distances (S (length (bs ++ b))) out (bs ++ b)); [apply VFixed|].
    destruct fixed_valid as (F1 & F2 & _). eapply tokens_odd; eauto.
  - replace Odd with (read_dynamic nl nd CL out (bl ++ b)); [now apply (VDynamic pos out nl nd nc)|]. unfold read_dynamic. destruct (valid_dec CL) as [_|]; [|contradiction].
    destruct (dynamic_lengths nl nd CL bl l b H2 H3 ltac:(lia)) as (f & ->). now rewrite lengths_odd.
  - replace Odd with (read_dynamic nl nd CL out (bl ++ bs ++ b)); [now apply (VDynamic pos out nl nd nc)|]. rewrite (dynamic_codes nl nd CL out bl LL DL) by assumption.
    destruct (valid_dec LL) as [V1|]; [|contradiction]. destruct (valid_dec DL) as [V2|]; [|contradiction]. eapply tokens_odd; eauto.
Qed.

(** ** One verdict *)
Lemma type_clash x y b c : 0 <= x < 4 -> 0 <= y < 4 -> lsb_bits 2 x ++ b = lsb_bits 2 y ++ c -> x = y /\ b = c.
Proof.
  intros Hx Hy E. apply app_inv_len in E as [E1 E2]; [|reflexivity]. split; [|exact E2].
  apply (lsb_inj 2); [change (2 ^ Z.of_nat 2) with 4; lia..|exact E1].
Qed.
Lemma same_pad {A} pos (p q : list A) a b : (pos + 2 + len p) mod 8 = 0 -> len p < 8 -> (pos + 2 + len q) mod 8 = 0 -> len q < 8 ->
  p ++ a = q ++ b -> p = q /\ a = b.
Proof.
  intros H1 H2 H3 H4 E. apply app_inv_len; [|exact E]. apply Nat2Z.inj. change (len p = len q).
  pose proof (len_nonneg _ p). pose proof (len_nonneg _ q).
  pose proof (Z.div_mod (pos + 2 + len p) 8 ltac:(lia)). pose proof (Z.div_mod (pos + 2 + len q) 8 ltac:(lia)). lia.
Qed.
Lemma same_16 n m a b : 0 <= n < 65536 -> 0 <= m < 65536 -> lsb_bits 16 n ++ a = lsb_bits 16 m ++ b -> n = m /\ a = b.
Proof.
  intros Hx Hy E. apply app_inv_len in E as [E1 E2]; [|now rewrite !lsb_length]. split; [|exact E2].
  apply (lsb_inj 16); [change (2 ^ Z.of_nat 16) with 65536; lia..|exact E1].
Qed.
Lemma bits_inj a : forall b, bytes_ok a -> bytes_ok b -> bits_of a = bits_of b -> a = b.
Proof.
  induction a as [|x a IH]; intros [|y b] Ha Hb E; [reflexivity|discriminate E|discriminate E|].
  rewrite !bits_of_cons in E. apply app_inv_len in E as [E1 E2]; [|now rewrite !lsb_length].
  inversion Ha; inversion Hb; subst. f_equal; [|now apply IH]. unfold is_byte in *.
  apply (lsb_inj 8); [change (2 ^ Z.of_nat 8) with 256; lia..|exact E1].
Qed.

Lemma stored_verdict pos out pad b n v : (pos + 2 + len pad) mod 8 = 0 -> len pad < 8 -> 0 <= n < 65536 ->
  block_verdict pos out (lsb_bits 2 0 ++ pad ++ lsb_bits 16 n ++ b) v ->
  (v = Bad /\ (len b < 16 \/ (exists m c, 0 <= m < 65536 /\ m <> 65535 - n /\ b = lsb_bits 16 m ++ c) \/
               (exists c, b = lsb_bits 16 (65535 - n) ++ c /\ len c < 8 * n))) \/
  (exists data more, len data = n /\ bytes_ok data /\ b = lsb_bits 16 (65535 - n) ++ bits_of data ++ more /\ v = Good (out ++ data) more).
Proof.
  intros P1 P2 Hn H. remember (lsb_bits 2 0 ++ pad ++ lsb_bits 16 n ++ b) as bits eqn:E.
  destruct H as [x H|x|q x H1 H2 H3|q n' m x H1 H2 H3 H4 H5|q n' x H1 H2 H3 H4|q data more H1 H2 H3 H4|x|x H|nl nd nc x H1 H2 H3 H4|nl nd nc CL h x H1].
  - exfalso. subst x. rewrite len_app, lsb_len in H. pose proof (len_nonneg _ (pad ++ lsb_bits 16 n ++ b)). lia.
  - apply type_clash in E as [E _]; lia.
  - apply type_clash in E as [_ E]; [|lia..]. apply (same_pad pos) in E as [_ ->]; try assumption.
    left. split; [reflexivity|]. left. rewrite len_app, lsb_len in H3. lia.
  - apply type_clash in E as [_ E]; [|lia..]. apply (same_pad pos) in E as [_ E]; try assumption. apply same_16 in E as [-> <-]; try assumption.
    left. split; [reflexivity|]. right; left. eauto.
  - apply type_clash in E as [_ E]; [|lia..]. apply (same_pad pos) in E as [_ E]; try assumption. apply same_16 in E as [-> <-]; try assumption.
    left. split; [reflexivity|]. right; right. eauto.
  - apply type_clash in E as [_ E]; [|lia..]. apply (same_pad pos) in E as [_ E]; try assumption. pose proof (len_nonneg _ data). apply same_16 in E as [<- <-]; [|lia|assumption].
    right. exists data, more. auto.
  - apply type_clash in E as [E _]; lia.
  - apply type_clash in E as [E _]; lia.
  - apply type_clash in E as [E _]; lia.
  - apply type_clash in E as [E _]; lia.
Qed.
Lemma start_len nl nd nc CL h : dynamic_start nl nd nc CL h -> len h = 14 + 3 * nc /\
  exists f, h = lsb_bits 5 (nl - 257) ++ lsb_bits 5 (nd - 1) ++ lsb_bits 4 (nc - 4) ++ f /\ len f = 3 * nc.
Proof.
  intros (_ & _ & H & _ & _ & _ & ->).
  assert (forall T, len (flat_map (fun s => lsb_bits 3 (code_len CL s)) T) = 3 * len T) as HF.
  { induction T as [|t T IH]; [reflexivity|]. cbn [flat_map]. rewrite len_app, lsb_len, IH, len_cons. lia. }
  assert (len (ztake nc length_order) = nc) as HN by (rewrite len_ztake; change (len length_order) with 19; lia).
  split; [rewrite !len_app, !lsb_len, HF; lia|]. eexists. split; [reflexivity|]. now rewrite HF, HN.
Qed.
Lemma same_counts nl nd nc b nl' nd' nc' b' : 257 <= nl <= 288 -> 1 <= nd <= 32 -> 4 <= nc <= 19 -> 257 <= nl' <= 288 -> 1 <= nd' <= 32 -> 4 <= nc' <= 19 ->
  lsb_bits 5 (nl - 257) ++ lsb_bits 5 (nd - 1) ++ lsb_bits 4 (nc - 4) ++ b = lsb_bits 5 (nl' - 257) ++ lsb_bits 5 (nd' - 1) ++ lsb_bits 4 (nc' - 4) ++ b' ->
  nc = nc' /\ b = b'.
Proof.
  intros H1 H2 H3 G1 G2 G3 E.
  apply app_inv_len in E as [_ E]; [|now rewrite !lsb_length]. apply app_inv_len in E as [_ E]; [|now rewrite !lsb_length].
  apply app_inv_len in E as [E3 E]; [|now rewrite !lsb_length].
  apply lsb_inj in E3; [|change (2 ^ Z.of_nat 4) with 16; lia|change (2 ^ Z.of_nat 4) with 16; lia]. split; [lia|exact E].
Qed.
Lemma dynamic_verdict pos out x v : block_verdict pos out (lsb_bits 2 2 ++ x) v ->
  (v = Bad /\ len x < 14) \/
  (v = Bad /\ exists nl nd nc b, 257 <= nl <= 288 /\ 1 <= nd <= 32 /\ 4 <= nc <= 19 /\ len b < 3 * nc /\
      x = lsb_bits 5 (nl - 257) ++ lsb_bits 5 (nd - 1) ++ lsb_bits 4 (nc - 4) ++ b) \/
  (exists nl nd nc CL h b, dynamic_start nl nd nc CL h /\ x = h ++ b /\ v = read_dynamic nl nd CL out b).
Proof.
  intros H. remember (lsb_bits 2 2 ++ x) as bits eqn:E.
  destruct H as [b H|b|q b H1 H2 H3|q n' m b H1 H2 H3 H4 H5|q n' b H1 H2 H3 H4|q data more H1 H2 H3 H4|b|b H|nl nd nc b H1 H2 H3 H4|nl nd nc CL h b H1];
    try (apply type_clash in E as [E _]; lia).
  - exfalso. subst b. rewrite len_app, lsb_len in H. pose proof (len_nonneg _ x). lia.
  - apply type_clash in E as [_ <-]; [|lia..]. now left.
  - apply type_clash in E as [_ <-]; [|lia..]. right; left. split; [reflexivity|]. exists nl, nd, nc, b. auto 10.
  - apply type_clash in E as [_ <-]; [|lia..]. right; right. exists nl, nd, nc, CL, h, b. auto.
Qed.
Lemma short_verdict pos out b v : len b < 2 -> block_verdict pos out b v -> v = Bad.
Proof.
  intros HL H. assert (forall ty (x : list bool), len (lsb_bits 2 ty ++ x) < 2 -> False) as HN by (intros ty x Hx; rewrite len_app, lsb_len in Hx; pose proof (len_nonneg _ x); lia).
  destruct H; try reflexivity; exfalso; eapply HN; exact HL.
Qed.
Lemma fixed_verdict pos out x v : block_verdict pos out (lsb_bits 2 1 ++ x) v -> v = read_tokens fixed_lengths fixed_distances (S (length x)) out x.
Proof.
  intros H. remember (lsb_bits 2 1 ++ x) as bits eqn:E.
  destruct H; try (apply type_clash in E as [E _]; lia).
  - exfalso. subst b. rewrite len_app, lsb_len in H. pose proof (len_nonneg _ x). lia.
  - apply type_clash in E as [_ <-]; [|lia..]. reflexivity.
Qed.
Lemma reserved_verdict pos out x v : block_verdict pos out (lsb_bits 2 3 ++ x) v -> v = Bad.
Proof.
  intros H. remember (lsb_bits 2 3 ++ x) as bits eqn:E.
  destruct H; try reflexivity; apply type_clash in E as [E _]; lia.
Qed.
Lemma stored_short_verdict pos out pad b v : (pos + 2 + len pad) mod 8 = 0 -> len pad < 8 -> len b < 32 ->
  block_verdict pos out (lsb_bits 2 0 ++ pad ++ b) v -> v = Bad.
Proof.
  intros P1 P2 HB H. remember (lsb_bits 2 0 ++ pad ++ b) as bits eqn:E.
  destruct H as [x H|x|q x H1 H2 H3|q n' m x H1 H2 H3 H4 H5|q n' x H1 H2 H3 H4|q data more H1 H2 H3 H4|x|x H|nl nd nc x H1 H2 H3 H4|nl nd nc CL h x H1]; try reflexivity;
    try (apply type_clash in E as [E _]; lia).
  exfalso. apply type_clash in E as [_ E]; [|lia..]. apply (same_pad pos) in E as [_ <-]; try assumption.
  rewrite !len_app, !lsb_len in HB. pose proof (len_nonneg _ (bits_of data)). pose proof (len_nonneg _ more). lia.
Qed.
Lemma one_verdict pos out bits v w : block_verdict pos out bits v -> block_verdict pos out bits w -> v = w.
Proof.
  intros H W.
  destruct H as [x H|x|q x H1 H2 H3|q n m x H1 H2 H3 H4 H5|q n x H1 H2 H3 H4|q data more H1 H2 H3 H4|x|x H|nl nd nc x H1 H2 H3 H4|nl nd nc CL h x H1]; symmetry.
  - now apply (short_verdict pos out x).
  - now apply (reserved_verdict pos out x).
  - now apply (stored_short_verdict pos out q x).
  - apply stored_verdict in W; try assumption. destruct W as [[-> _]|(data & more & HD & HB & E & ->)]; [reflexivity|].
    exfalso. apply same_16 in E as [E _]; lia.
  - apply stored_verdict in W; try assumption. destruct W as [[-> _]|(data & more & HD & HB & E & ->)]; [reflexivity|].
    exfalso. apply app_inv_head in E. subst x. rewrite len_app, bits_of_len in H4. pose proof (len_nonneg _ more). lia.
  - pose proof (len_nonneg _ data) as HD0. apply stored_verdict in W; [|assumption|assumption|lia].
    destruct W as [[_ [W|[(m & c & W1 & W2 & E)|(c & E & W)]]]|(data' & more' & HD & HB & E & ->)].
    + exfalso. rewrite len_app, lsb_len in W. pose proof (len_nonneg _ (bits_of data ++ more)). lia.
    + exfalso. apply same_16 in E as [E _]; lia.
    + exfalso. apply app_inv_head in E. subst c. rewrite len_app, bits_of_len in W. pose proof (len_nonneg _ more). lia.
    + apply app_inv_head in E. apply app_inv_len in E as [E ->]; [|rewrite !bits_of_length; unfold len in HD; lia].
      apply bits_inj in E as ->; auto.
  - now apply (fixed_verdict pos out x).
  - apply dynamic_verdict in W as [[-> _]|[[-> _]|(nl & nd & nc & CL & h & b & HS & -> & _)]]; [reflexivity..|].
    exfalso. destruct (start_len _ _ _ _ _ HS) as [HL _]. destruct HS as (_ & _ & HS & _). rewrite len_app in H. pose proof (len_nonneg _ b). lia.
  - apply dynamic_verdict in W as [[-> _]|[[-> _]|(nl' & nd' & nc' & CL & h & b & HS & E & _)]]; [reflexivity..|].
    exfalso. destruct (start_len _ _ _ _ _ HS) as [HL (f & Ef & Lf)]. destruct HS as (S1 & S2 & S3 & _). subst h. rewrite <- !app_assoc in E.
    apply same_counts in E as [-> ->]; try assumption. rewrite len_app in H4. pose proof (len_nonneg _ b). lia.
  - apply dynamic_verdict in W as [[-> W]|[[-> (nl' & nd' & nc' & b & W1 & W2 & W3 & W4 & E)]|(nl' & nd' & nc' & CL' & h' & b & HS & E & ->)]].
    + exfalso. destruct (start_len _ _ _ _ _ H1) as [HL _]. destruct H1 as (_ & _ & HS & _). rewrite len_app in W. pose proof (len_nonneg _ x). lia.
    + exfalso. destruct (start_len _ _ _ _ _ H1) as [HL (f & Ef & Lf)]. destruct H1 as (S1 & S2 & S3 & _). subst h. rewrite <- !app_assoc in E.
      apply same_counts in E as [<- <-]; try assumption. rewrite len_app in W4. pose proof (len_nonneg _ x). lia.
    + destruct (start_same _ _ _ _ _ _ _ _ _ _ _ _ H1 HS E) as (-> & -> & _ & -> & ->). reflexivity.
Qed.

(** ** Streams *)
Inductive stream_verdict : Z -> bytes -> list bool -> verdict -> Prop :=
| SNil pos out : stream_verdict pos out [] Bad
| SLast pos out b o r : block_verdict (pos + 1) out b (Good o r) -> stream_verdict pos out (true :: b) (Good o r)
| SNext pos out b o r v : block_verdict (pos + 1) out b (Good o r) -> stream_verdict (pos + 1 + (len b - len r)) o r v ->
    stream_verdict pos out (false :: b) v
| SStop pos out (final : bool) b v : block_verdict (pos + 1) out b v -> v = Bad \/ v = Odd -> stream_verdict pos out (final :: b) v.
Lemma one_stream_verdict pos out bits v : stream_verdict pos out bits v -> forall w, stream_verdict pos out bits w -> v = w.
Proof.
  intros H. induction H as [pos out|pos out b o r H|pos out b o r v H _ IH|pos out final b v H HV]; intros w W.
  - now inversion W.
  - inversion W as [|? ? ? ? ? W1| |? ? ? ? ? W1 W2]; subst; [now apply (one_verdict (pos + 1) out b)|].
    pose proof (one_verdict _ _ _ _ _ H W1) as <-. destruct W2; discriminate.
  - inversion W as [| |? ? ? ? ? ? W1 W2|? ? ? ? ? W1 W2]; subst.
    + pose proof (one_verdict _ _ _ _ _ H W1) as E. injection E as <- <-. now apply IH.
    + pose proof (one_verdict _ _ _ _ _ H W1) as <-. destruct W2; discriminate.
  - inversion W as [|? ? ? ? ? W1|? ? ? ? ? ? W1 W2|? ? ? ? ? W1 W2]; subst; pose proof (one_verdict _ _ _ _ _ H W1) as E; [|destruct HV; subst v; discriminate E|exact E].
    destruct HV; subst v; discriminate E.
Qed.
Lemma good_stream pos out bits r more : stream_bits pos out bits r -> stream_verdict pos out (bits ++ more) (Good r more).
Proof.
  intros H. revert more. induction H as [pos out b r H|pos out b out1 bs r H _ IH]; intros more; cbn [app].
  - apply SLast. now apply good_block.
  - rewrite <- app_assoc. eapply SNext; [apply good_block; exact H|]. rewrite len_app. replace (len b + len (bs ++ more) - len (bs ++ more)) with (len b) by lia. apply IH.
Qed.
Lemma bad_stream pos out bits r : stream_fault pos out bits r -> stream_verdict pos out bits Bad.
Proof.
  intros H. induction H as [pos out|pos out final b r H|pos out b out1 bs r H _ IH].
  - apply SNil.
  - apply SStop; [|now left]. now apply (bad_block (pos + 1) out b r).
  - eapply SNext; [apply good_block; exact H|]. rewrite len_app. replace (len b + len bs - len bs) with (len b) by lia. apply IH.
Qed.
Lemma odd_stream pos out bits : stream_senseless pos out bits -> stream_verdict pos out bits Odd.
Proof.
  intros H. induction H as [pos out final b H|pos out b out1 bs H _ IH].
  - apply SStop; [|now right]. now apply odd_block.
  - eapply SNext; [apply good_block; exact H|]. rewrite len_app. replace (len b + len bs - len bs) with (len b) by lia. apply IH.
Qed.

(** ** Byte strings *)
Theorem one_meaning z a b : deflate_prefix z a -> deflate_prefix z b -> a = b.
Proof.
  intros (_ & p & m & E & H) (_ & p' & m' & E' & H'). apply (good_stream _ _ _ _ m) in H. apply (good_stream _ _ _ _ m') in H'.
  rewrite <- E in H. rewrite <- E' in H'. pose proof (one_stream_verdict _ _ _ _ H _ H') as X. now injection X.
Qed.
Theorem not_faulty z b : deflate_prefix z b -> ~ faulty z.
Proof.
  intros (_ & p & m & E & H) (r & F). apply (good_stream _ _ _ _ m) in H. rewrite <- E in H. apply bad_stream in F.
  pose proof (one_stream_verdict _ _ _ _ H _ F) as X. discriminate X.
Qed.
Theorem not_senseless z b : deflate_prefix z b -> ~ senseless z.
Proof.
  intros (_ & p & m & E & H) F. apply (good_stream _ _ _ _ m) in H. rewrite <- E in H. apply odd_stream in F.
  pose proof (one_stream_verdict _ _ _ _ H _ F) as X. discriminate X.
Qed.
Theorem not_both z : faulty z -> ~ senseless z.
Proof. intros (r & F) G. apply bad_stream in F. apply odd_stream in G. pose proof (one_stream_verdict _ _ _ _ F _ G) as X. discriminate X. Qed.
Theorem one_decoding z a b : deflates_to z a -> deflates_to z b -> a = b.
Proof. intros (H1 & p & m & E & _ & H) (G1 & p' & m' & E' & _ & H'). apply (one_meaning z); split; eauto. Qed.
