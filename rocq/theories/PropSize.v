(** Property C69: compressing cannot make data much larger. *)
From Coq Require Import String ZArith List Bool Lia.
From Verif Require Import Base BaseFacts PropTensor Arr Tinfl Tdefl AssetsZip DeflTop PropCompress.
Import ListNotations.
Open Scope Z_scope.

(** *** C69 *)
(** Whatever the data and whatever the heap held: compressed data is at most a sixth and
    580 bytes longer than the data, and at most 5 bytes longer if the data fits the first
    block. *)
Theorem C69_compressed_size : forall v dict next buf b z, host_big v = false -> heap_bytes buf -> bytes_ok b ->
  npy_deflate v dict next buf b = Ok z ->
  6 * len z <= 7 * len b + 6 * 580 /\ (len b <= 31744 -> len z <= len b + 5).
Proof.
  intros v dict next buf b z _ HH HB HE. destruct (npy_deflate_ok v dict next buf b HH HB) as (z' & E & _ & F).
  rewrite HE in E. injection E as <-. exact F.
Qed.
Print Assumptions C69_compressed_size.
(** The hypotheses are met, and the 5 bytes are needed: one byte of data takes six. *)
Example C69_case : heap_bytes arr_empty /\ bytes_ok [200] /\
  forall v, host_big v = false -> npy_deflate v arr_empty arr_empty arr_empty [200] = Ok [1; 1; 0; 254; 255; 200].
Proof.
  split; [intros i _; rewrite arr_get_empty; lia|]. split; [repeat constructor; unfold is_byte; lia|].
  intros [h d m] _. destruct d; vm_compute; reflexivity.
Qed.
