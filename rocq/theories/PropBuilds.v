(** C15 for archives, paths and the compressor: what NDEBUG changes. *)
From Coq Require Import String ZArith List Bool Lia.
From Verif Require Import Base Stream BaseFacts Dtype Values Header Tensor Npy Npz Files HeaderFacts ParserRel PropHeader PropTensor Arr DeflateSpec Tinfl Tdefl AssetsZip Spec ZipSpec PropNpz PropOthers.
Import ListNotations.
Open Scope Z_scope.

(** A call came back: with a value or an exception (and not with a failed assertion or in
    undefined behaviour). *)
Definition returned {A} (o : outcome A) : Prop := (exists a, o = Ok a) \/ (exists e, o = Throw e).

(** A debug build's codec and a release build's: decompression has no assertion, and
    compression agrees whenever the debug build's comes back. *)
Definition same_codec (debug rel : codec) : Prop :=
  c_inflate rel = c_inflate debug /\ forall b, returned (c_deflate debug b) -> c_deflate rel b = c_deflate debug b.

Lemma read_file_builds v c c' m n : c_inflate c' = c_inflate c -> read_file (release v) c' m n = read_file v c m n.
Proof. intros H. unfold read_file. rewrite H. reflexivity. Qed.
Lemma save_builds v t e : save (release v) t e = save v t e.
Proof. reflexivity. Qed.

Theorem C15_archive_reads : forall host_is_big memory c c' d r n g,
  let debug := mk_env host_is_big true memory in
  let rel := mk_env host_is_big false memory in
  same_codec c c' ->
  (returned (fst (fst (r_read debug c d r n g))) -> r_read rel c' d r n g = r_read debug c d r n g) /\
  (returned (fst (fst (r_peek debug c r n g))) -> r_peek rel c' r n g = r_peek debug c r n g).
Proof.
  intros hb mm c c' d r n g debug rel [HI _]. change rel with (release debug).
  assert (r_read_file (release debug) c' r n = r_read_file debug c r n) as HF.
  { unfold r_read_file. now rewrite (read_file_builds debug c c') by exact HI. }
  split; intros HR; [unfold r_read in *|unfold r_peek in *]; rewrite HF; destruct (r_read_file debug c r n) as [[b|e| |u] r']; try reflexivity.
  - destruct (C15_assertions_only_reject hb mm d (open_str b) g) as [HL _]. cbv zeta in HL. fold debug rel in HL.
    change (release debug) with rel. rewrite HL; [reflexivity|].
    destruct (load debug d (open_str b) g) as [[o s] g']. exact HR.
  - destruct (C15_assertions_only_reject hb mm INT8 (open_str b) g) as [_ HL]. cbv zeta in HL. fold debug rel in HL.
    change (release debug) with rel. rewrite HL; [reflexivity|].
    destruct (peek debug (open_str b) g) as [[o s] g']. exact HR.
Qed.
Print Assumptions C15_archive_reads.

Theorem C15_archive_writes : forall host_is_big memory c c' w n t,
  let debug := mk_env host_is_big true memory in
  let rel := mk_env host_is_big false memory in
  same_codec c c' ->
  returned (w_write debug c w n t) -> w_write rel c' w n t = w_write debug c w n t.
Proof.
  intros hb mm c c' w n t debug rel [_ HD]. change rel with (release debug). unfold w_write, w_write_on. rewrite save_builds.
  destruct (w_closed w) eqn:EC; [reflexivity|]. destruct (save debug t (w_endian w)) as [b|e| |u]; try reflexivity. cbn [obind].
  unfold w_write_file_on. rewrite EC. unfold write_file_on.
  destruct (w_method w =? STORED); [reflexivity|]. destruct (w_method w =? DEFLATED); [|reflexivity]. intros HR.
  rewrite HD; [reflexivity|]. destruct (c_deflate c b) as [x|e| |u]; [left; now exists x|right; now exists e| |];
    destruct HR as [[a Ha]|[e Ha]]; discriminate.
Qed.
Print Assumptions C15_archive_writes.

(** The codec is a [same_codec] if it is libnpy's own. *)
Lemma deflate_chunk_builds v n : forall d src fin out, returned (deflate_chunk n v d src fin out) ->
  deflate_chunk n (release v) d src fin out = deflate_chunk n v d src fin out.
Proof.
  induction n as [|n IH]; intros d src fin out HR; [reflexivity|]. cbn [deflate_chunk] in *.
  destruct (mz_deflate d src CHUNK fin) as [[[[r s1] o] d1]|e| |u]; try reflexivity. cbn [obind dbg release andb] in *.
  destruct (dbg v && (r =? MZ_STREAM_ERROR)); [destruct HR as [[a Ha]|[e Ha]]; discriminate|].
  destruct (CHUNK - len o =? 0); [|reflexivity]. now apply IH.
Qed.
Lemma returned_bind {A B} (o : outcome A) (k : A -> outcome B) : returned (obind o k) -> returned o.
Proof. destruct o as [a|e| |u]; cbn [obind]; intros [[x H]|[x H]]; try discriminate; [left|left|right]; eauto. Qed.
Theorem C15_compressor : forall memory dict next buf b,
  let debug := mk_env false true memory in
  let rel := mk_env false false memory in
  returned (npy_deflate debug dict next buf b) -> npy_deflate rel dict next buf b = npy_deflate debug dict next buf b.
Proof.
  intros mm dict next buf b debug rel. change rel with (release debug). unfold npy_deflate.
  generalize (new_tdefl dict next buf) as d. generalize (@nil Z) as out. generalize (S (length b)) as n. intros n. revert b.
  induction n as [|n IH]; intros b out d HR; [reflexivity|]. cbn [deflate_chunks] in *. cbv zeta in *.
  rewrite deflate_chunk_builds by exact (returned_bind _ _ HR).
  destruct (deflate_chunk _ debug d _ _ out) as [[[[r s1] o] d1]|e| |u]; try reflexivity. cbn [obind] in *.
  change (dbg (release debug)) with false. change (dbg debug) with true in HR |- *. cbn [andb] in *.
  destruct (negb (len s1 =? 0)); [destruct HR as [[a Ha]|[e Ha]]; discriminate|].
  destruct (len (ztake CHUNK b) <? CHUNK).
  - destruct (negb (r =? MZ_STREAM_END)); [destruct HR as [[a Ha]|[e Ha]]; discriminate|reflexivity].
  - now apply IH.
Qed.
Print Assumptions C15_compressor.

(** Files by path. *)
Theorem C15_paths : forall host_is_big memory d p k g t e taken,
  let debug := mk_env host_is_big true memory in
  let rel := mk_env host_is_big false memory in
  (returned (fst (load_path debug d p k g)) -> load_path rel d p k g = load_path debug d p k g) /\
  (returned (fst (peek_path debug p k g)) -> peek_path rel p k g = peek_path debug p k g) /\
  save_path rel t e p taken k = save_path debug t e p taken k.
Proof.
  intros hb mm d p k g t e taken debug rel. unfold load_path, peek_path, save_path. split; [|split; [|reflexivity]]; intros HR; destruct (file_at k p) as [b|]; try reflexivity.
  - destruct (C15_assertions_only_reject hb mm d (open_file b) g) as [HL _]. cbv zeta in HL. fold debug rel in HL. rewrite HL; [reflexivity|].
    destruct (load debug d (open_file b) g) as [[o s] g']. exact HR.
  - destruct (C15_assertions_only_reject hb mm d (open_file b) g) as [_ HL]. cbv zeta in HL. fold debug rel in HL. rewrite HL; [reflexivity|].
    destruct (peek debug (open_file b) g) as [[o s] g']. exact HR.
Qed.
Print Assumptions C15_paths.

(** The hypotheses are met by a good archive; and the converse fails: a member whose magic
    string is wrong is refused by the debug build only. *)
Definition wrong_magic : bytes :=
  [0; 0; 0; 0; 0; 0] ++ zdrop 6 (write_npy_header (str "|u1") false [1]) ++ [42].
Definition wrong_member : zfile :=
  mk_zfile (str "a.npy") 0 (crc32_standard wrong_magic) wrong_magic (len wrong_magic) 0 20 0 0x21 None 0x31E 20 0 0x21 None 0 0 0.
Definition wrong_zip : bytes :=
  local_record wrong_member ++ flat_map central_record [wrong_member] ++ end_record 0 0 1 1 51 (len (local_record wrong_member)).
Example C15_archive_case :
  let c := mk_codec Ok npy_inflate in let g := (zrepeat 0 8, DTYPE_MAP) in
  same_codec c c /\
  (exists r, opened case_zip r /\ returned (fst (fst (r_read case_env c UNICODE_STRING r (str "a") (zrepeat 0 65536, DTYPE_MAP))))) /\
  exists r, opened wrong_zip r /\
    (exists t, fst (fst (r_read (mk_env false false 1000) c UINT8 r (str "a") g)) = Ok t) /\
    fst (fst (r_read (mk_env false true 1000) c UINT8 r (str "a") g)) = AssertFail.
Proof.
  cbv zeta. split; [split; auto|]. split.
  - destruct (new_string_reader case_zip) as [r| | |] eqn:E; try (vm_compute in E; discriminate).
    exists r. split; [left; exact E|]. vm_compute in E. injection E as <-. left. eexists. vm_compute. reflexivity.
  - destruct (new_string_reader wrong_zip) as [r| | |] eqn:E; try (vm_compute in E; discriminate).
    exists r. split; [left; exact E|]. vm_compute in E. injection E as <-. split; [eexists; vm_compute; reflexivity|]. vm_compute. reflexivity.
Qed.
