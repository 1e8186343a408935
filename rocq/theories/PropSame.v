(** Property C72: compression is reproducible.  What was in memory before the call, the build
    and the size of the machine's memory leave no trace in the output. *)
From Coq Require Import String ZArith List Bool Lia.
From Verif Require Import Base Stream BaseFacts Dtype Values Tensor Npy Crc Npz TensorFacts PropTensor SaveFacts PropNpy PropNpz PropZip
  Spec ZipSpec Arr DeflateSpec Tinfl Tdefl TdeflAsserts AssetsZip PropCompress DeflAsserts DeflLz3 DeflTop Twin.
Import ListNotations.
Open Scope Z_scope.

(** *** C72 *)
(** The compressor's state is allocated and not cleared: [dict], [next] and [buf] are what its
    window, its chains and its token buffer hold then (the first two in any cells at all, the
    last in bytes). *)
Theorem C72_compression_ignores_memory : forall v v' dict next buf dict' next' buf' b,
  heap_bytes buf -> heap_bytes buf' -> bytes_ok b ->
  npy_deflate v dict next buf b = npy_deflate v' dict' next' buf' b.
Proof.
  intros v v' dict next buf dict' next' buf' b H H' HB.
  rewrite <- (heap_irrelevant v dict next buf dict' next' buf' b H H' HB).
  rewrite <- (npy_deflate_a_ok v dict' next' buf' b H' HB). exact (npy_deflate_a_ok v' dict' next' buf' b H' HB).
Qed.
Print Assumptions C72_compression_ignores_memory.
(** A dirty heap and a clean one, an input longer than the window, a debug build and a
    release build. *)
Example C72_case : heap_bytes junk /\ heap_bytes arr_empty /\ bytes_ok case_text /\
  arr_get 0 junk 5 = 5 /\ arr_get 0 arr_empty 5 = 0 /\
  exists z, npy_deflate case_env junk junk junk case_text = Ok z /\ len z = 295 /\
    npy_deflate (mk_env false false (2 ^ 20)) arr_empty arr_empty arr_empty case_text = Ok z.
Proof.
  destruct C52_case as (H1 & H2 & _ & z & E & L).
  assert (heap_bytes arr_empty) as H0 by (intros i Hi; rewrite arr_get_empty; lia).
  split; [exact H1|]. split; [exact H0|]. split; [exact H2|]. split; [vm_compute; reflexivity|]. split; [apply arr_get_empty|].
  exists z. split; [exact E|]. split; [exact L|].
  rewrite <- (C72_compression_ignores_memory case_env (mk_env false false (2 ^ 20)) junk junk junk arr_empty arr_empty arr_empty case_text H1 H0 H2).
  exact E.
Qed.

(** Archives.  Two programs make the same calls on the same writer, in two processes or two
    builds, on little-endian machines: every call answers alike, and at every point the bytes
    written so far, and all the rest of the writer, are the same. *)
Definition arrays_of_the_library (ops : list op) : Prop :=
  Forall (fun o => match o with Write _ t => api_tensor t | Close => True end) ops.
Lemma codec_same v v' c c' b : libnpy_codec v c -> libnpy_codec v' c' -> bytes_ok b -> c_deflate c b = c_deflate c' b.
Proof.
  intros (_ & _ & H) (_ & _ & H') HB. destruct (H b) as (di & ne & bu & HH & ->). destruct (H' b) as (di' & ne' & bu' & HH' & ->).
  now apply C72_compression_ignores_memory.
Qed.
Lemma save_same v v' t e : host_big v = false -> host_big v' = false -> save v t e = save v' t e.
Proof.
  destruct v as [hb dg mm], v' as [hb' dg' mm']. cbn [host_big]. intros -> ->. reflexivity.
Qed.
Lemma w_write_same v v' c c' w n t : libnpy_codec v c -> libnpy_codec v' c' -> api_tensor t -> w_write v c w n t = w_write v' c' w n t.
Proof.
  intros HC HC' HT. unfold w_write, w_write_on. rewrite (save_same v v') by (apply HC || apply HC').
  destruct (w_closed w) eqn:EC; [reflexivity|]. destruct (save v' t (w_endian w)) as [b|e| |u] eqn:ES; try reflexivity. cbn [obind].
  unfold w_write_file_on. rewrite EC. unfold write_file_on.
  rewrite (codec_same v v' c c' b HC HC' (save_ok v' t _ b HT ES)). reflexivity.
Qed.
Theorem C72_same_archive : forall v v' c c' w ops, libnpy_codec v c -> libnpy_codec v' c' -> arrays_of_the_library ops ->
  history v c w ops = history v' c' w ops.
Proof.
  intros v v' c c' w ops HC HC' HO. revert w. induction HO as [|o ops Ho _ IH]; intros w; [reflexivity|]. cbn [history].
  assert (call v c w o = call v' c' w o) as ->. { destruct o as [n t|]; [|reflexivity]. cbn [call]. now rewrite (w_write_same v v' c c'). }
  destruct (call v' c' w o) as [x w1]. rewrite IH. reflexivity.
Qed.
Print Assumptions C72_same_archive.
(** A debug build with a dirty heap and a release build with a clean one. *)
Definition case_ops : list op := [Write (str "a") case_tensor; Write (str "b") case_tensor; Close; Write (str "c") case_tensor].
Example C72_archive_case :
  let c := miniz_codec case_env junk junk junk in
  let v' := mk_env false false (2 ^ 20) in
  let c' := miniz_codec v' arr_empty arr_empty arr_empty in
  libnpy_codec case_env c /\ libnpy_codec v' c' /\ arrays_of_the_library case_ops /\
  fst (history case_env c (new_writer DEFLATED LITTLE) case_ops) = [Ok tt; Ok tt; Ok tt; Throw RuntimeError] /\
  len (w_str (snd (history v' c' (new_writer DEFLATED LITTLE) case_ops))) > 300.
Proof.
  intros c v' c'. split; [apply C49_case|]. split.
  { split; [reflexivity|]. split; [reflexivity|]. intros b. exists arr_empty, arr_empty, arr_empty. split; [|reflexivity].
    intros i Hi. rewrite arr_get_empty. lia. }
  split. { pose proof case_tensor_api as H. repeat (apply Forall_cons; [exact H || exact I|]). constructor. }
  split; vm_compute; reflexivity.
Qed.

(** *** C49, again *)
(** With C72 one computation decides for every heap and build: a newly made
    [tensor<double>({64, 64})], stored by libnpy in a compressed archive, cannot be read back
    by libnpy (its file is 128 bytes longer than a window of the decompressor).  The archive
    may hold anything else, in any order, and other members may have been read before. *)
Lemma square_is_lost : match make_tensor case_env FLOAT64 [64; 64] false with
  | Ok t => match save case_env t LITTLE with
            | Ok b => match npy_deflate case_env arr_empty arr_empty arr_empty b with
                      | Ok z => (len z <=? 200) && match npy_inflate z with Throw RuntimeError => true | _ => false end
                      | _ => false
                      end
            | _ => false
            end
  | _ => false
  end = true.
Proof. vm_compute. reflexivity. Qed.
Theorem C49_some_arrays_are_lost : forall v1 v2 c items a r r' n g t,
  libnpy_codec v1 c -> 200 <= mem v2 -> make_tensor v1 FLOAT64 [64; 64] false = Ok t ->
  archive v1 c DEFLATED LITTLE items a -> opened a r -> reader_after v2 c r r' -> resolve items n = Some t ->
  exists r'', r_read v2 c FLOAT64 r' n g = (Throw RuntimeError, r'', g).
Proof.
  intros v1 v2 c items a r r' n g t HC HM HT HA HO HR Hn.
  assert (make_tensor case_env FLOAT64 [64; 64] false = Ok t) as HT'.
  { unfold make_tensor in *. destruct (get_size [64; 64] * item_size FLOAT64 >? mem v1) in HT; [discriminate HT|]. rewrite <- HT. reflexivity. }
  destruct (PropDeflate.deflated_entry v1 v2 c LITTLE items a r r' n t HA HO HR Hn) as (file & z & r'' & HS & HZ & HB & HRd).
  pose proof square_is_lost as HQ. rewrite HT' in HQ.
  rewrite (save_same v1 case_env) in HS by (apply HC || reflexivity). rewrite HS in HQ.
  destruct HC as (_ & HI & HD). destruct (HD file) as (di & ne & bu & HH & E). rewrite HZ in E.
  rewrite (C72_compression_ignores_memory v1 case_env di ne bu arr_empty arr_empty arr_empty file HH
    ltac:(intros i Hi; rewrite arr_get_empty; lia) HB) in E. rewrite <- E in HQ.
  apply andb_true_iff in HQ as [H1 H2]. apply Z.leb_le in H1. specialize (HRd ltac:(lia)). rewrite HI in HRd.
  destruct (npy_inflate z) as [?|[]| |?]; try discriminate H2.
  exists r''. unfold r_read. rewrite HRd. reflexivity.
Qed.
Print Assumptions C49_some_arrays_are_lost.
(** There is such an archive. *)
Example C49_lost_case : let c := miniz_codec case_env arr_empty arr_empty arr_empty in
  exists t a r, make_tensor case_env FLOAT64 [64; 64] false = Ok t /\
  archive case_env c DEFLATED LITTLE [(str "x", t)] a /\ opened a r /\ resolve [(str "x", t)] (str "x") = Some t.
Proof.
  intros c. destruct (make_tensor case_env FLOAT64 [64; 64] false) as [t|e| |u] eqn:ET; try (vm_compute in ET; discriminate ET).
  assert (libnpy_codec case_env c) as HC.
  { split; [reflexivity|]. split; [reflexivity|]. intros b. exists arr_empty, arr_empty, arr_empty. split; [|reflexivity].
    intros i Hi. rewrite arr_get_empty. lia. }
  assert (api_tensor t) as HT by (eapply by_ctor; [|exact ET]; repeat constructor; vm_compute; congruence).
  assert (forall b, save case_env t LITTLE = Ok b -> len b = 32896) as HL.
  { intros b Hb. apply (f_equal (fun o => match o with Ok x => len x | _ => 0 end)) in Hb. cbn [len] in Hb.
    rewrite <- Hb. vm_compute in ET. injection ET as <-. vm_compute. reflexivity. }
  assert (match PropNpz.write_all case_env c (new_writer DEFLATED LITTLE) [(str "x", t)] with
          | Ok w => len (w_str (w_close w)) <? 1000 | _ => false end = true) as HW.
  { vm_compute in ET. injection ET as <-. vm_compute. reflexivity. }
  destruct (PropNpz.write_all case_env c (new_writer DEFLATED LITTLE) [(str "x", t)]) as [w|e| |u] eqn:EW; try discriminate HW.
  apply Z.ltb_lt in HW.
  assert (archive case_env c DEFLATED LITTLE [(str "x", t)] (w_str (w_close w))) as HA.
  { split; [now right|]. split.
    { constructor; [|constructor]. split; [exact HT|]. split; [vm_compute; discriminate|]. intros b Hb. rewrite (HL b Hb). reflexivity. }
    split.
    { constructor; [|constructor]. intros b Hb. left. destruct HC as (_ & _ & HC). destruct (HC b) as (dict & next & buf & HH & E).
      destruct (npy_deflate_ok case_env dict next buf b HH (save_ok _ _ _ _ HT Hb)) as (z & E' & _ & L). exists z. split; [congruence|].
      cbn [snd] in Hb. rewrite (HL b Hb) in L. change (2 ^ 32) with 4294967296. destruct L as [L _]. lia. }
    split; [vm_compute; discriminate|]. split; [change (2 ^ 32) with 4294967296; lia|].
    exists (new_writer DEFLATED LITTLE), w. split; [now left|]. auto. }
  destruct (archive_ps _ _ _ _ _ _ HA) as (_ & _ & _ & _ & (r & Hr) & _).
  exists t, (w_str (w_close w)), r. split; [reflexivity|]. split; [exact HA|]. split; [now left|reflexivity].
Qed.
