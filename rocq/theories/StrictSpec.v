(** What a debug build accepts as the text of an NPY header: the format's punctuation, every
    key followed by a colon and every value by a comma; independent of the parser. *)
From Coq Require Import String ZArith List Bool Lia.
From Verif Require Import Base Dtype Values Header Spec LenientSpec.
Import ListNotations.
Open Scope Z_scope.

(** The characters: quote 39, colon 58, comma 44, parentheses 40 and 41, braces 123 and 125. *)
Inductive strict_value : bytes -> field_value -> Prop :=
| Strict_descr c : c <> [] -> ~ In 39 c -> len c <= 65535 -> strict_value (39 :: c ++ [39]) (FDescr c)
| Strict_true : strict_value (str "True") (FOrder true)
| Strict_false : strict_value (str "False") (FOrder false)
| Strict_shape t l : ~ In 41 t -> len t <= 65535 -> dims_read t l -> strict_value (40 :: t ++ [41]) (FShape l).
Inductive strict_entry : bytes -> field_value -> bytes -> Prop :=
| Strict_entry w1 w2 w3 val f w4 r :
    blank w1 -> blank w2 -> blank w3 -> strict_value val f -> blank w4 -> dark r ->
    strict_entry (w1 ++ 39 :: key_text f ++ 39 :: w2 ++ 58 :: w3 ++ val ++ 44 :: w4 ++ r) f r.
Inductive strict_entries : bytes -> list field_value -> bytes -> Prop :=
| Strict_none t : strict_entries t [] t
| Strict_more t f r fs r' : ~ closed t -> strict_entry t f r -> strict_entries r fs r' -> strict_entries t (f :: fs) r'.
Definition strict_header (text : bytes) (fs : list field_value) : Prop :=
  exists body r, text = 123 :: body /\ strict_entries body fs r /\ closed r.
