(** ZIP files as other programs write them (PKWARE APPNOTE 4.3-4.5), as far as
    libnpy's reader can follow.  Nothing here refers to libnpy's code. *)
From Coq Require Import String ZArith List Bool Lia.
From Verif Require Import Base Spec.
Import ListNotations.
Open Scope Z_scope.

Definition le64 (x : Z) : bytes := digits256 8 x.

(** APPNOTE 4.5.3: the ZIP64 extra field. It holds the values whose 32-bit field is
    0xFFFFFFFF, in the order uncompressed size, compressed size, offset; writers may
    leave unused bytes after them. *)
Record zip64 := mk_zip64 { x_size : bool; x_csize : bool; x_offset : bool; x_unused : bytes }.
Definition moved (o : option zip64) (f : zip64 -> bool) : bool :=
  match o with Some x => f x | None => false end.
Definition extra_field (o : option zip64) (size csize : Z) (offset : option Z) : bytes :=
  match o with
  | None => []
  | Some x =>
      let body := (if x_size x then le64 size else [])
               ++ (if x_csize x then le64 csize else [])
               ++ (match offset with Some p => if x_offset x then le64 p else [] | None => [] end)
               ++ x_unused x in
      le16 1 ++ le16 (len body) ++ body
  end.
Definition field32 (elsewhere : bool) (x : Z) : bytes := le32 (if elsewhere then 0xFFFFFFFF else x).

(** One member: what a ZIP reader needs, and the fields only other programs care
    about. *)
Record zfile := mk_zfile {
  z_name : bytes;
  z_method : Z;
  z_crc : Z;
  z_data : bytes;                (* as stored: compressed if the method says so *)
  z_size : Z;                    (* uncompressed *)
  z_offset : Z;                  (* of the local header *)
  l_version : Z; l_flags : Z; l_time : Z; l_extra : option zip64;
  c_made_by : Z; c_version : Z; c_flags : Z; c_time : Z; c_extra : option zip64;
  c_disk : Z; c_internal : Z; c_external : Z
}.
(** 4.3.7: local file header and data, with the given extra field *)
Definition local_with (m : zfile) (extra : bytes) : bytes :=
  le32 0x04034b50 ++ le16 (l_version m) ++ le16 (l_flags m) ++ le16 (z_method m) ++ le32 (l_time m)
  ++ le32 (z_crc m) ++ field32 (moved (l_extra m) x_csize) (len (z_data m))
  ++ field32 (moved (l_extra m) x_size) (z_size m)
  ++ le16 (len (z_name m)) ++ le16 (len extra) ++ z_name m ++ extra ++ z_data m.
Definition local_record (m : zfile) : bytes :=
  local_with m (extra_field (l_extra m) (z_size m) (len (z_data m)) None).
(** 4.3.12: directory entry, with an empty comment *)
Definition central_with (m : zfile) (extra : bytes) : bytes :=
  le32 0x02014b50 ++ le16 (c_made_by m) ++ le16 (c_version m) ++ le16 (c_flags m)
  ++ le16 (z_method m) ++ le32 (c_time m) ++ le32 (z_crc m)
  ++ field32 (moved (c_extra m) x_csize) (len (z_data m))
  ++ field32 (moved (c_extra m) x_size) (z_size m)
  ++ le16 (len (z_name m)) ++ le16 (len extra) ++ le16 0 ++ le16 (c_disk m) ++ le16 (c_internal m)
  ++ le32 (c_external m) ++ field32 (moved (c_extra m) x_offset) (z_offset m)
  ++ z_name m ++ extra.
Definition central_record (m : zfile) : bytes :=
  central_with m (extra_field (c_extra m) (z_size m) (len (z_data m)) (Some (z_offset m))).
(** 4.3.16, with an empty comment *)
Definition end_record (disk1 disk2 here total size offset : Z) : bytes :=
  le32 0x06054b50 ++ le16 disk1 ++ le16 disk2 ++ le16 here ++ le16 total ++ le32 size ++ le32 offset
  ++ le16 0.

(** The fields fit, and a value kept in its 32-bit field is not 0xFFFFFFFF. *)
Definition half (x : Z) : Prop := 0 <= x < 2 ^ 16.
Definition word (x : Z) : Prop := 0 <= x < 2 ^ 32.
Definition placed (elsewhere : bool) (x : Z) : Prop :=
  0 <= x < 2 ^ 63 /\ (elsewhere = false -> x < 2 ^ 32 - 1).
Definition extra_ok (o : option zip64) : Prop :=
  match o with Some x => len (x_unused x) < 65000 | None => True end.
Definition zfile_ok (m : zfile) : Prop :=
  len (z_name m) < 2 ^ 16 /\ half (z_method m) /\ word (z_crc m) /\
  0 <= l_version m <= 45 /\ half (l_flags m) /\ word (l_time m) /\ extra_ok (l_extra m) /\
  placed (moved (l_extra m) x_size) (z_size m) /\ placed (moved (l_extra m) x_csize) (len (z_data m)) /\
  half (c_made_by m) /\ 0 <= c_version m <= 45 /\ half (c_flags m) /\ word (c_time m) /\ extra_ok (c_extra m) /\
  placed (moved (c_extra m) x_size) (z_size m) /\ placed (moved (c_extra m) x_csize) (len (z_data m)) /\
  placed (moved (c_extra m) x_offset) (z_offset m) /\
  half (c_disk m) /\ half (c_internal m) /\ word (c_external m).

(** A ZIP file with these members, in directory order: the local records anywhere, in
    any order, with anything between them; the directory where the end record says;
    the end record last. *)
Definition holds_local (a : bytes) (m : zfile) : Prop :=
  exists before after, a = before ++ local_record m ++ after /\ len before = z_offset m.
Definition zip_directory (a : bytes) (ms : list zfile) : Prop :=
  len ms < 2 ^ 16 /\ Forall zfile_ok ms /\
  exists before between disk1 disk2 total size,
    a = before ++ flat_map central_record ms ++ between
        ++ end_record disk1 disk2 (len ms) total size (len before) /\
    half disk1 /\ half disk2 /\ half total /\ word size /\ word (len before).
Definition zip_file (a : bytes) (ms : list zfile) : Prop :=
  zip_directory a ms /\ Forall (holds_local a) ms.

(** The member a name denotes: the last one of that name, or else of that name with
    ".npy" appended. *)
Definition member_named (ms : list zfile) (n : bytes) : option zfile :=
  let named := map (fun m => (z_name m, m)) ms in
  match last_filed named n with
  | Some m => Some m
  | None => last_filed named (n ++ str ".npy")
  end.
