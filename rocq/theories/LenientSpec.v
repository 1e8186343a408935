(** What a release build takes the text of an NPY header to mean, as relations on the text;
    independent of the parser. Punctuation is not looked at: where the format has a brace,
    colon, comma or opening quote, any character is skipped. *)
From Coq Require Import String ZArith List Bool Lia.
From Verif Require Import Base Dtype Values Header Spec.
Import ListNotations.
Open Scope Z_scope.

Definition blank_char (c : Z) : Prop := c = 32 \/ 9 <= c <= 13.
Definition digit_char (c : Z) : Prop := 48 <= c <= 57.
(** Text that starts with a character that is not blank. *)
Definition dark (t : bytes) : Prop := exists c r, t = c :: r /\ ~ blank_char c.

(** ** Numbers *)
(** The number written by decimal digits. *)
Fixpoint decimal (ds : bytes) : Z :=
  match ds with [] => 0 | c :: t => (c - 48) * 10 ^ len t + decimal t end.
(** [t] begins with the number [n], after blanks and with an optional sign; [r] follows. *)
Definition begins_with (t : bytes) (n : Z) (r : bytes) : Prop :=
  exists w sign ds, t = w ++ sign ++ ds ++ r /\ blank w /\ ds <> [] /\ Forall digit_char ds /\
    (forall c r', r = c :: r' -> ~ digit_char c) /\
    ((sign = [] \/ sign = [43]) /\ n = decimal ds \/ sign = [45] /\ n = - decimal ds).   (* + is 43, - is 45 *)

(** ** The three values *)
(** The inside of the shape's parentheses: numbers with or without commas; whatever cannot be
    read as one, or is 2^64 or more, ends the list. Negative numbers count modulo 2^64. *)
Definition past_comma (r : bytes) : bytes := match r with 44 :: r' => r' | _ => r end.
Inductive dims_read : bytes -> list Z -> Prop :=
| Dims_more t n r l : begins_with t n r -> Z.abs n < 2 ^ 64 -> dims_read (past_comma r) l -> dims_read t (n mod 2 ^ 64 :: l)
| Dims_end t : ~ (exists n r, begins_with t n r /\ Z.abs n < 2 ^ 64) -> dims_read t [].
(** The type code: if its second character is U, a string type whose length follows; else
    one of numpy's codes; else 8-bit integers. *)
Definition says_unicode (c : bytes) : Prop := exists x t, c = x :: 85 :: t.
Inductive code_read : bytes -> dtype -> endian -> Z -> Prop :=
| Code_unicode x t n r : begins_with t n r -> - 2 ^ 31 <= n < 2 ^ 31 ->
    code_read (x :: 85 :: t) UNICODE_STRING (if x =? 62 then BIG else LITTLE) (n mod 2 ^ 64)
| Code_known d big : d <> UNICODE_STRING -> code_read (numpy_descr d big) d (recorded_order d big) 0
| Code_unknown c : c <> [] -> ~ says_unicode c -> (forall d big, d <> UNICODE_STRING -> c <> numpy_descr d big) -> code_read c INT8 NATIVE 0.

(** Text up to (not including) [close], of at most 65535 characters, and the character after it. *)
Definition token_read (close : Z) (t : bytes) (after : Z) : Prop :=
  ~ In close t /\ (after = close /\ len t <= 65535 \/ len t = 65535).

Inductive value_read : bytes -> field_value -> Prop :=
| Value_descr q c q' : ~ blank_char q -> c <> [] -> token_read 39 c q' -> value_read (q :: c ++ [q']) (FDescr c)
| Value_true a b c : value_read (84 :: [a; b; c]) (FOrder true)
| Value_false a b c d : value_read (70 :: [a; b; c; d]) (FOrder false)
| Value_shape q t q' l : ~ blank_char q -> token_read 41 t q' -> dims_read t l -> value_read (q :: t ++ [q']) (FShape l).

(** One entry, and what is left. *)
Inductive entry_read : bytes -> field_value -> bytes -> Prop :=
| Entry w1 q w2 c w3 val f m w4 r :
    blank w1 -> ~ blank_char q -> blank w2 -> ~ blank_char c -> blank w3 -> value_read val f -> blank w4 -> dark r ->
    entry_read (w1 ++ q :: key_text f ++ 39 :: w2 ++ c :: w3 ++ val ++ m :: w4 ++ r) f r.
Definition closed (t : bytes) : Prop := exists r, t = 125 :: r.
Inductive entries_read : bytes -> list field_value -> bytes -> Prop :=
| Entries_none t : entries_read t [] t
| Entries_more t f r fs r' : ~ closed t -> entry_read t f r -> entries_read r fs r' -> entries_read t (f :: fs) r'.
Definition header_read (text : bytes) (fs : list field_value) : Prop :=
  exists x body r, text = x :: body /\ entries_read body fs r /\ closed r.

(** The header the entries make; later ones win. *)
Inductive made : list field_value -> header_info -> header_info -> Prop :=
| Made_none h : made [] h h
| Made_descr c d e n fs h h' : code_read c d e n ->
    made fs (mk_header (Some d) (Some e) (h_fortran h) (h_shape h) (Some n)) h' -> made (FDescr c :: fs) h h'
| Made_order b fs h h' :
    made fs (mk_header (h_dtype h) (h_endian h) (Some b) (h_shape h) (h_maxlen h)) h' -> made (FOrder b :: fs) h h'
| Made_shape l fs h h' :
    made fs (mk_header (h_dtype h) (h_endian h) (h_fortran h) l (h_maxlen h)) h' -> made (FShape l :: fs) h h'.

(** ** The undefined case *)
(** After some entries there is a 'descr' key whose value is an empty string, or the text
    ends before the value's first character. *)
Definition no_code (t : bytes) : Prop :=
  exists w1 q t1, t = w1 ++ q :: str "descr" ++ t1 /\ blank w1 /\ ~ blank_char q /\
  (t1 = [] \/ exists w2 t2, t1 = 39 :: w2 ++ t2 /\ blank w2 /\
  (t2 = [] \/ exists c w3 t3, t2 = c :: w3 ++ t3 /\ ~ blank_char c /\ blank w3 /\
  (t3 = [] \/ exists q' t4, t3 = q' :: t4 /\ ~ blank_char q' /\
  (t4 = [] \/ exists r, t4 = 39 :: r)))).
Definition code_missing (text : bytes) : Prop :=
  exists x body fs r h, text = x :: body /\ entries_read body fs r /\ made fs header_uninit h /\ ~ closed r /\ no_code r.
