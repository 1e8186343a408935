(** Properties C49 and C52: libnpy's compressor, and compressed archives end to end. *)
From Coq Require Import String ZArith List Bool Lia.
From Verif Require Import Base Stream BaseFacts Dtype Values Spec ValuesFacts PropValues Header HeaderFacts
  ParseFacts ParserInv ParserRel NpyFacts Tensor Npy TensorFacts PropTensor SaveFacts PropNpy
  Crc PropCrc Npz NpzFacts ArchiveFacts PropNpz Arr DeflateSpec Tinfl Tdefl BitFacts InflTop PropDeflate
  DeflLz3 DeflBlock DeflTop AssetsZip.
Import ListNotations.
Open Scope Z_scope.

(** The memory the allocator hands to the compressor: any contents; the cells of the
    code buffer are bytes. *)
Definition heap_bytes (buf : arr) : Prop := forall i, 0 <= i -> 0 <= arr_get 0 buf i < 256.

(** *** C52 *)
(** For every byte string, of any length: a standard DEFLATE stream for exactly that
    string, never an exception, a failed assertion or an access outside the buffers. *)
Theorem C52_output_is_standard_deflate : forall v dict next buf b, host_big v = false -> heap_bytes buf -> bytes_ok b ->
  exists z, npy_deflate v dict next buf b = Ok z /\ deflates_to z b.
Proof. intros v dict next buf b _ HH HB. destruct (npy_deflate_ok v dict next buf b HH HB) as (z & E & D & _). exists z. auto. Qed.
Print Assumptions C52_output_is_standard_deflate.
(** A dirty heap, and an input longer than the 32 KiB window. *)
Definition case_text : bytes :=
  concat (repeat (map (fun i => (i * i + 7) mod 256) (map Z.of_nat (seq 0 200))) 170).
Example C52_case : heap_bytes junk /\ bytes_ok case_text /\ len case_text = 34000 /\
  exists z, npy_deflate case_env junk junk junk case_text = Ok z /\ len z = 295.
Proof.
  split.
  { intros i Hi. unfold junk.
    assert (forall l a, (forall j, 0 <= j -> 0 <= arr_get 0 a j < 256) -> forall j, 0 <= j ->
      0 <= arr_get 0 (fold_left (fun a i => arr_set a (Z.of_nat i) (Z.of_nat i mod 251)) l a) j < 256) as H.
    { induction l as [|n l IH]; intros a Ha j Hj; cbn [fold_left]; [auto|]. apply IH; [|assumption].
      apply (byte_cells_set a (Z.of_nat n)); [exact Ha|lia|]. pose proof (Z.mod_pos_bound (Z.of_nat n) 251 ltac:(lia)). lia. }
    apply H; [|assumption]. intros j Hj. rewrite arr_get_empty. lia. }
  split; [apply is_byteb_ok; vm_compute; reflexivity|]. split; [vm_compute; reflexivity|].
  eexists. split; [vm_compute; reflexivity|]. vm_compute. reflexivity.
Qed.

(** *** C49 *)
Theorem C49_round_trip : forall v dict next buf b, host_big v = false -> heap_bytes buf -> bytes_ok b ->
  exists z, npy_deflate v dict next buf b = Ok z /\
    (len b <= 2 ^ 15 -> npy_inflate z = Ok b) /\
    (len b < 2 ^ 20 -> len b mod 2 ^ 15 = 0 \/ 8128 < len b mod 2 ^ 15 -> npy_inflate z = Ok b) /\
    (len b < 2 ^ 20 \/ len z <= 2 ^ 21 ->
     npy_inflate z = Ok b \/ (npy_inflate z = Throw RuntimeError /\ may_be_refused z b)).
Proof.
  intros v dict next buf b _ HH HB. destruct (npy_deflate_ok v dict next buf b HH HB) as (z & E & D & _). exists z. split; [exact E|]. destruct (C50_standard_deflate_streams z b D) as (H & _).
  change (2 ^ 15) with 32768 in *. split.
  - intros HL. destruct H as [H|[H [H2 _]]]; [left; change (2 ^ 20) with 1048576; lia|exact H|change (2 ^ 15) with 32768 in *; lia].
  - split; [|exact H]. intros HL HM. destruct H as [H|[H [H2 [H3|H3]]]]; [now left|exact H| |lia]. change (2 ^ 15) with 32768 in *. lia.
Qed.
Print Assumptions C49_round_trip.
(** Contents of more than one window, of a size not just above a multiple of it. *)
Example C49_long_case : forall v, host_big v = false -> exists z,
  npy_deflate v arr_empty arr_empty arr_empty (zrepeat 7 50000) = Ok z /\ npy_inflate z = Ok (zrepeat 7 50000).
Proof.
  intros v HV. destruct (C49_round_trip v arr_empty arr_empty arr_empty (zrepeat 7 50000) HV) as (z & E & _ & H & _).
  - intros j Hj. rewrite arr_get_empty. lia.
  - unfold zrepeat. generalize (Z.to_nat 50000). intros n. induction n; constructor; [unfold is_byte; lia|assumption].
  - exists z. split; [exact E|]. apply H; rewrite len_zrepeat; [vm_compute; reflexivity|right; vm_compute; reflexivity].
Qed.
(** The bound is sharp: one byte more, and libnpy cannot read back what it wrote. *)
Theorem C49_bound_is_sharp : forall v, host_big v = false -> exists z,
  npy_deflate v arr_empty arr_empty arr_empty (zrepeat 0 32769) = Ok z /\ npy_inflate z = Throw RuntimeError.
Proof.
  intros [h d m] _. destruct d; (eexists; split; [vm_compute; reflexivity|vm_compute; reflexivity]).
Qed.
Print Assumptions C49_bound_is_sharp.

(** Compressed archives. [c] is libnpy's compressor and decompressor; what the
    allocator returns may differ from one written array to the next. *)
Definition libnpy_codec (v : env) (c : codec) : Prop :=
  host_big v = false /\ c_inflate c = npy_inflate /\
  forall b, exists dict next buf, heap_bytes buf /\ c_deflate c b = npy_deflate v dict next buf b.
Lemma libnpy_conforming v c : libnpy_codec v c -> conforming c.
Proof.
  intros (_ & _ & H) b z HB HE. destruct (H b) as (dict & next & buf & HH & E).
  destruct (npy_deflate_ok v dict next buf b HH HB) as (z' & E' & D & _). rewrite E, E' in HE. now injection HE as <-.
Qed.
Theorem C49_compressed_archives : forall v1 v2 c e items w0,
  libnpy_codec v1 c -> host_big v2 = false -> fresh_writer DEFLATED e w0 -> Forall (storable v1 e) items -> Forall (loadable v1 e v2) items ->
  (forall p b, In p items -> save v1 (snd p) e = Ok b -> len b <= 3 * 2 ^ 30) -> 2 ^ 22 <= mem v2 ->
  exists w, PropNpz.write_all v1 c w0 items = Ok w /\
  let a := w_str (w_close w) in
  (len items <= 65535 -> len a < 2 ^ 32 ->
   (exists r, new_string_reader a = Ok r) /\ (exists r, new_file_reader (Some a) = Ok r) /\
   forall r r' n g t, opened a r -> reader_after v2 c r r' -> prior_parses g -> resolve items n = Some t ->
     exists file z, save v1 t e = Ok file /\ c_deflate c file = Ok z /\
     (len file < 2 ^ 20 \/ len z <= 2 ^ 21 ->
      exists r'' g', prior_parses g' /\ reader_after v2 c r r'' /\
       (r_read v2 c (t_dtype t) r' n g = (Ok t, r'', g') \/
        (r_read v2 c (t_dtype t) r' n g = (Throw RuntimeError, r'', g') /\ may_be_refused z file)))).
Proof.
  intros v1 v2 c e items w0 HC HV2 Hw HS HLd HSz HM.
  assert (Forall (packs c DEFLATED v1 e) items) as HP.
  { apply Forall_forall. intros p Hp b Hb. left. destruct HC as (_ & _ & HC). destruct (HC b) as (dict & next & buf & HH & E).
    assert (bytes_ok b) as HB by (eapply Forall_forall in HS; [|exact Hp]; destruct HS as (Ht & _); eapply save_ok; eassumption).
    destruct (npy_deflate_ok v1 dict next buf b HH HB) as (z & E' & _ & L). exists z. split; [congruence|].
    specialize (HSz p b Hp Hb). change (2 ^ 30) with 1073741824 in HSz. change (2 ^ 32) with 4294967296. destruct L as [L _]. lia. }
  destruct (archive_setup v1 c DEFLATED e items w0 Hw (or_intror eq_refl) HS HP) as (w & HW & _ & _).
  exists w. split; [exact HW|]. intros a HN HLa.
  assert (archive v1 c DEFLATED e items a) as HA.
  { split; [now right|]. split; [exact HS|]. split; [exact HP|]. split; [exact HN|]. split; [exact HLa|]. exists w0, w. auto. }
  destruct (archive_ps _ _ _ _ _ _ HA) as (_ & _ & _ & _ & H1 & H2). split; [exact H1|]. split; [exact H2|].
  intros r r' n g t Hop Haf Hg HR. pose proof (resolve_in _ _ _ HR) as (k & Hin).
  assert (api_tensor t) as Ht by (eapply Forall_forall in HS; [|exact Hin]; apply HS).
  assert (loadable v1 e v2 (n, t)) as HL by (eapply Forall_forall in HLd; [|exact Hin]; exact HLd).
  destruct (C50_any_compressor v1 v2 c e items a r r' n t g (libnpy_conforming v1 c HC) (proj1 (proj2 HC)) HV2 HA Hop Haf HR Ht HL Hg)
    as (file & z & HF & HZ & HX).
  exists file, z. split; [exact HF|]. split; [exact HZ|]. intros HLf.
  assert (len z <= 2 ^ 22) as HZL.
  { destruct HC as (_ & _ & HC). destruct (HC file) as (dict & next & buf & HH & E).
    destruct (npy_deflate_ok v1 dict next buf file HH (save_ok _ _ _ _ Ht HF)) as (z' & E' & _ & L).
    rewrite HZ, E' in E. injection E as <-. destruct L as [L _]. change (2 ^ 22) with 4194304. change (2 ^ 20) with 1048576 in HLf. change (2 ^ 21) with 2097152 in HLf. lia. }
  destruct HX as (r'' & g' & X1 & X2 & X3); [lia|exact HLf|]. exists r'', g'. auto.
Qed.
Print Assumptions C49_compressed_archives.
Example C49_case : libnpy_codec case_env (miniz_codec case_env junk junk junk) /\
  fresh_writer DEFLATED BIG (new_writer DEFLATED BIG) /\
  Forall (storable case_env BIG) case_items /\ Forall (loadable case_env BIG case_env) case_items /\
  (forall p b, In p case_items -> save case_env (snd p) BIG = Ok b -> len b <= 3 * 2 ^ 30) /\ 2 ^ 22 <= mem case_env /\
  resolve case_items (str "a") = Some case_tensor /\
  exists w, PropNpz.write_all case_env (miniz_codec case_env junk junk junk) (new_writer DEFLATED BIG) case_items = Ok w /\
    len (w_str (w_close w)) < 950.
Proof.
  split. { split; [reflexivity|]. split; [reflexivity|]. intros b. exists junk, junk, junk. split; [apply C52_case|reflexivity]. }
  split; [now left|]. split; [apply C35_case|]. split; [apply C35_case|]. split.
  { intros p b [<-|[<-|[<-|[<-|[]]]]] Hb; vm_compute in Hb; injection Hb as <-; vm_compute; discriminate. }
  split; [vm_compute; discriminate|]. split; [reflexivity|].
  assert (match PropNpz.write_all case_env (miniz_codec case_env junk junk junk) (new_writer DEFLATED BIG) case_items with
          | Ok w => len (w_str (w_close w)) <? 950 | _ => false end = true) as H by (vm_compute; reflexivity).
  destruct (PropNpz.write_all _ _ _ _) as [w| | |]; try discriminate. exists w. split; [reflexivity|]. now apply Z.ltb_lt.
Qed.
