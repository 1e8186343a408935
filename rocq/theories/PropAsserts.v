(** Property C68: compressing data trips no assertion. *)
From Coq Require Import String ZArith List Bool Lia.
From Verif Require Import Base BaseFacts PropTensor Arr DeflateSpec Tinfl Tdefl TdeflAsserts AssetsZip DeflTop PropCompress DeflAsserts.
Import ListNotations.
Open Scope Z_scope.

(** *** C68 *)
(** [npy_deflate_a] runs the compressor with every assertion of zip.cpp and of the bundled
    compressor checked; the answer [Ok] therefore says that none of them failed.  It is the
    answer of the compressor without the checks, and a DEFLATE stream of the input. *)
Theorem C68_no_assertion_fails : forall dict next buf b, heap_bytes buf -> bytes_ok b ->
  exists z, npy_deflate_a dict next buf b = Ok z /\ deflates_to z b /\
    forall v, host_big v = false -> npy_deflate v dict next buf b = Ok z.
Proof.
  intros dict next buf b HH HB.
  destruct (npy_deflate_ok case_env dict next buf b HH HB) as (z & E & HD & _). exists z.
  assert (forall v, npy_deflate_a dict next buf b = npy_deflate v dict next buf b) as H.
  { intros v. now apply npy_deflate_a_ok. }
  split; [rewrite (H case_env); exact E|]. split; [exact HD|]. intros v _. rewrite <- (H v), (H case_env). exact E.
Qed.
Print Assumptions C68_no_assertion_fails.
(** The hypotheses are met by an input longer than the window and a dirty heap. *)
Example C68_case : heap_bytes junk /\ bytes_ok case_text /\
  exists z, npy_deflate_a junk junk junk case_text = Ok z /\ npy_deflate case_env junk junk junk case_text = Ok z /\ len z = 295.
Proof.
  destruct C52_case as (H1 & H2 & H3 & z & E & L). split; [exact H1|]. split; [exact H2|].
  exists z. rewrite (npy_deflate_a_ok case_env) by assumption. auto.
Qed.
(** The checks are there: bits that do not fit, a symbol without a code, a match that is
    too far away and a block begun with output still waiting each stop the program. *)
Example C68_checks : forall o, put_bits_a 4 2 o = AssertFail /\
  lit_fast_a (mk_tables [0] [0] [0] [0]) 0 (0, 0) = AssertFail /\
  record_match_a (new_tdefl arr_empty arr_empty arr_empty) 3 32769 = AssertFail /\
  flush_block_a (set_pend (new_tdefl arr_empty arr_empty arr_empty) [1]) false 100 = AssertFail.
Proof. intros o. repeat split. Qed.
