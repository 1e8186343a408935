(** Fixed-size C arrays of numbers, as finite maps from indices; [None] is a cell
    that was never written. *)
From Coq Require Import ZArith List Bool Lia FMapPositive.
From Verif Require Import Base.
Import ListNotations.
Open Scope Z_scope.

(** Not in /repo: C arrays as finite maps from index to value (Tinfl.v: m_dict, m_look_up, m_tree, src/miniz/miniz.h 795-799; Tdefl.v: m_dict, m_next, m_hash, m_lz_code_buf, 916-942). *)
Definition arr := PositiveMap.t Z.
(** An array none of whose cells was written (or, where the code memsets it, all zeros: arr_get 0). *)
Definition arr_empty : arr := PositiveMap.empty Z.
(** Helper: indices as positives. *)
Definition arr_key (i : Z) : positive := Z.to_pos (i + 1).
(** a[i], None when never written. *)
Definition arr_find (a : arr) (i : Z) : option Z := PositiveMap.find (arr_key i) a.
(** a[i], with [d] where never written. *)
Definition arr_get (default : Z) (a : arr) (i : Z) : Z :=
  match arr_find a i with Some x => x | None => default end.
(** a[i] = x. *)
Definition arr_set (a : arr) (i x : Z) : arr := PositiveMap.add (arr_key i) x a.

Lemma arr_find_empty i : arr_find arr_empty i = None.
Proof. apply PositiveMap.gempty. Qed.
Lemma arr_find_same a i x : arr_find (arr_set a i x) i = Some x.
Proof. apply PositiveMap.gss. Qed.
Lemma arr_find_other a i j x : 0 <= i -> 0 <= j -> i <> j -> arr_find (arr_set a i x) j = arr_find a j.
Proof. intros. apply PositiveMap.gso. unfold arr_key. lia. Qed.
Lemma arr_get_same d a i x : arr_get d (arr_set a i x) i = x.
Proof. unfold arr_get. now rewrite arr_find_same. Qed.
Lemma arr_get_other d a i j x : 0 <= i -> 0 <= j -> i <> j -> arr_get d (arr_set a i x) j = arr_get d a j.
Proof. intros. unfold arr_get. now rewrite arr_find_other. Qed.
Lemma arr_get_empty d i : arr_get d arr_empty i = d.
Proof. unfold arr_get. now rewrite arr_find_empty. Qed.
