(** Specification for property C71: what the bytes of an archive say about its members.
    Only positions in the byte string and numbers stored there; no streams. The
    functions [byte_at], [number_at], [inside], [signed], [record_name], [next_record],
    [archive_fate] are those of C59 (PropAny.v). *)
From Coq Require Import String ZArith List Bool Lia.
From Verif Require Import Base Stream Spec Crc PropCrc Npz PropAny.
Import ListNotations.
Open Scope Z_scope.

Definition full (x : Z) : bool := x =? 2 ^ 32 - 1.
(** A 32-bit field, or the 64-bit number at [q] if the field is all ones. *)
Definition widened (a : bytes) (q x : Z) : Z := if full x then number_at a q 8 else x.
(** [n] bytes from [q] on; what is not in the file counts as NUL. *)
Definition padded (a : bytes) (q n : Z) : bytes :=
  let got := ztake n (zdrop q a) in got ++ zrepeat 0 (n - len got).

(** The fields of a header with the given contents, [q] being where its extra field
    starts, if it has one. *)
Definition fields (a : bytes) (name : bytes) (crc csize usize method offset : Z) (has_extra : bool) (q : Z) : file_entry :=
  if has_extra then
    let q1 := q + 4 in
    let q2 := q1 + 8 * bit (full usize) in
    let q3 := q2 + 8 * bit (full csize) in
    mk_entry name crc (widened a q2 csize) (widened a q1 usize) method (widened a q3 offset)
  else mk_entry name crc csize usize method offset.

(** The directory record at [p]. *)
Definition record_at (a : bytes) (p : Z) : file_entry :=
  fields a (record_name a p) (number_at a (p + 16) 4) (number_at a (p + 20) 4) (number_at a (p + 24) 4)
    (number_at a (p + 10) 2) (number_at a (p + 42) 4)
    (negb (number_at a (p + 30) 2 =? 0)) (p + 46 + number_at a (p + 28) 2).
Fixpoint directory (a : bytes) (n : nat) (p : Z) : list file_entry :=
  match n with
  | O => []
  | S n' => record_at a p :: match next_record a p with Some q => directory a n' q | None => [] end
  end.
Definition records (a : bytes) : list file_entry :=
  directory a (Z.to_nat (number_at a (len a - 14) 2)) (number_at a (len a - 6) 4).
(** Of several records with one name the last counts; a name that is not there is looked
    up again with ".npy" added. *)
Definition last_named (a name : bytes) : option file_entry :=
  find (fun e => beq (f_name e) name) (rev (records a)).
Definition member (a name : bytes) : option file_entry :=
  match last_named a name with Some e => Some e | None => last_named a (name ++ str ".npy") end.

(** The local header at [p], and where the data start, if it is accepted. The field
    [f_offset] does not occur in local headers. *)
Definition local_at (a : bytes) (p : Z) : file_entry :=
  let n := number_at a (p + 26) 2 in
  fields a (padded a (p + 30) n) (number_at a (p + 14) 4) (number_at a (p + 18) 4) (number_at a (p + 22) 4)
    (number_at a (p + 8) 2) 0 (negb (number_at a (p + 28) 2 =? 0)) (p + 30 + n).
Definition needed_at (a : bytes) (p : Z) : Z :=
  8 * (bit (full (number_at a (p + 18) 4)) + bit (full (number_at a (p + 22) 4))).
Definition data_at (a : bytes) (p : Z) : option Z :=
  let q := p + 30 + number_at a (p + 26) 2 in
  if 45 <? number_at a (p + 4) 2 then None
  else if number_at a (p + 28) 2 =? 0 then Some q
  else if negb (number_at a q 2 =? 1) then None
  else if number_at a (q + 2) 2 <? needed_at a p then None else Some (q + 4 + number_at a (q + 2) 2).
(** What the two headers must agree on. *)
Definition agree (e l : file_entry) : bool :=
  beq (f_name e) (f_name l) && (f_crc e =? f_crc l) && (f_method e =? f_method l)
  && (f_csize e =? f_csize l) && (f_usize e =? f_usize l).
(** The checksum of the contents. By C32 it is the standard CRC-32 of any bytes below 4 GiB. *)
Definition checksum (b : bytes) : Z := npy_crc32 b.

(** The contents of the member a directory record describes; [inflate] decompresses. *)
Definition contents (memory : Z) (inflate : bytes -> outcome bytes) (a : bytes) (e : file_entry) : outcome bytes :=
  let p := f_offset e in
  if (2 ^ 63 <=? p) || negb (inside a p) then Undef UninitRead
  else if negb (signed a p 0x04034b50) then Throw RuntimeError
  else match data_at a p with
       | None => Throw RuntimeError
       | Some q =>
           if negb (agree e (local_at a p)) then Throw RuntimeError
           else if memory <? f_csize e then Throw AllocError
           else let raw := padded a q (f_csize e) in
                match (if f_method e =? 8 then inflate raw else Ok raw) with
                | Ok b => if checksum b =? f_crc e then Ok b else Throw RuntimeError
                | x => x
                end
       end.

(** How far into the file the local header is read: up to where it is refused, or to
    its end without the part of the extra field that is skipped. *)
Definition header_end (a : bytes) (p : Z) : Z :=
  let q := p + 30 + number_at a (p + 26) 2 in
  if negb (signed a p 0x04034b50) then p + 4
  else if 45 <? number_at a (p + 4) 2 then p + 6
  else if number_at a (p + 28) 2 =? 0 then q
  else if negb (number_at a q 2 =? 1) then q + 2
  else q + 4 + needed_at a p.
(** Whether the attempt ran past the end of the file, after which the reader answers
    nothing any more. Skipping past the end goes unnoticed in files ([on_disk]), but not
    in memory. *)
Definition exhausts (on_disk : bool) (memory : Z) (a : bytes) (e : file_entry) : bool :=
  let p := f_offset e in
  (len a <? header_end a p) ||
  (signed a p 0x04034b50 &&
   match data_at a p with
   | None => false
   | Some q => (negb on_disk && (len a <? q)) ||
               (agree e (local_at a p) && (f_csize e <=? memory) && (0 <? f_csize e) && (len a <? q + f_csize e))
   end).

(** A program asks for members one after the other until an answer is undefined.
    [lost]: an earlier request ran past the end. *)
Fixpoint answers_to (on_disk : bool) (memory : Z) (inflate : bytes -> outcome bytes) (a : bytes) (lost : bool)
    (names : list bytes) : list (outcome bytes) :=
  match names with
  | [] => []
  | n :: rest =>
      match member a n with
      | None => Throw InvalidArgument :: answers_to on_disk memory inflate a lost rest
      | Some e =>
          if lost then [Undef UninitRead]
          else match contents memory inflate a e with
               | Undef u => [Undef u]
               | x => x :: answers_to on_disk memory inflate a (exhausts on_disk memory a e) rest
               end
      end
  end.

(** Whether reading the directory record at [p] runs past the end. *)
Definition record_lost (on_disk : bool) (a : bytes) (p : Z) : bool :=
  let q := p + 46 + number_at a (p + 28) 2 in
  if number_at a (p + 30) 2 =? 0 then len a <? q
  else (len a <? q + 4 + 8 * (bit (full (number_at a (p + 20) 4)) + bit (full (number_at a (p + 24) 4))
                              + bit (full (number_at a (p + 42) 4))))
       || (negb on_disk && match next_record a p with Some r => len a <? r | None => false end).
(** The same for a directory of [n] records: after the last one. *)
Fixpoint directory_lost (on_disk : bool) (a : bytes) (n : nat) (p : Z) : bool :=
  match n with
  | O => false
  | S O => record_lost on_disk a p
  | S n' => match next_record a p with Some q => directory_lost on_disk a n' q | None => false end
  end.
Definition lost_at_once (on_disk : bool) (a : bytes) : bool :=
  directory_lost on_disk a (Z.to_nat (number_at a (len a - 14) 2)) (number_at a (len a - 6) 4).
