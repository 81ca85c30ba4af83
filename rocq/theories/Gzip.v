(** * gzip.open(path, "rb") (reader.py:79-80)

    Models CPython's [gzip._GzipReader] (Lib/gzip.py): members (RFC 1952) one after the other,
    each a header, a raw DEFLATE stream, CRC-32 and length; zero padding after a member is
    skipped.  [gunzip] is all or nothing: [None] when some read would fail.  Not part of /repo;
    which opener is used is decided there. *)
From Coq Require Import List ZArith Lia Bool.
From Coq Require Import Init.Byte.
From Verif Require Import PyBase Inflate.
Import ListNotations.
Open Scope Z_scope.

(** ** CRC-32 *)

Definition crc_bit (c : Z) : Z :=
  if Z.odd c then Z.lxor (Z.shiftr c 1) 3988292384 (* 0xEDB88320 *) else Z.shiftr c 1.
Definition crc_byte (c : Z) (b : byte) : Z :=
  let c := Z.lxor c (bval b) in
  crc_bit (crc_bit (crc_bit (crc_bit (crc_bit (crc_bit (crc_bit (crc_bit c))))))).
Definition crc32 (l : list byte) : Z := Z.lxor (fold_left crc_byte l 4294967295) 4294967295.

(** ** Member header *)

Fixpoint skip_bytes (n : nat) : P unit :=
  match n with O => pret tt | S k => let* _ := getbyte in skip_bytes k end.

(** What follows the first NUL.  (CPython reads to the end of the file when there is none; the
    DEFLATE stream is then missing, so failing here comes to the same.) *)
Fixpoint after_nul (l : list byte) : option (list byte) :=
  match l with [] => None | b :: r => if Byte.eqb b x00 then Some r else after_nul r end.
Definition skip_text : P unit :=
  fun s => match after_nul (b_bytes s) with
           | Some r => Some (tt, mkB (b_bits s) r)
           | None => None
           end.

(** Whether bit [n] of the flags is set. *)
Definition flag (f : byte) (n : Z) : bool := Z.testbit (bval f) n.

(** The two magic bytes 0x1f 0x8b. *)
Definition gz_magic (l : list byte) : bool :=
  match l with a :: b :: _ => Byte.eqb a x1f && Byte.eqb b x8b | _ => false end.

(** Lib/gzip.py [_read_gzip_header] after the magic. *)
Definition gz_header : P unit :=
  let* method := getbyte in
  let* flags := getbyte in
  let* _ := skip_bytes 6 in
  if negb (bval method =? 8) then pfail else
  let* _ := (if flag flags 2 then
               let* l0 := getbyte in
               let* l1 := getbyte in
               skip_bytes (Z.to_nat (bval l0 + 256 * bval l1))
             else pret tt) in
  let* _ := (if flag flags 3 then skip_text else pret tt) in
  let* _ := (if flag flags 4 then skip_text else pret tt) in
  if flag flags 1 then skip_bytes 2 else pret tt.

(** Lib/gzip.py [_read_eof]: CRC-32 and length modulo 2^32. *)
Definition get_u32 : P Z :=
  let* a := getbyte in
  let* b := getbyte in
  let* c := getbyte in
  let* d := getbyte in
  pret (bval a + 256 * (bval b + 256 * (bval c + 256 * bval d))).

Definition gz_member (fuel : nat) : P (list byte) :=
  let* _ := gz_header in
  let* out := blocks fuel fuel [] in
  let* _ := align in
  let data := rev out in
  let* crc := get_u32 in
  let* len := get_u32 in
  if (crc =? crc32 data) && (len =? zlen data mod 4294967296) then pret data else pfail.

Fixpoint drop_zeros (l : list byte) : list byte :=
  match l with [] => [] | b :: r => if Byte.eqb b x00 then drop_zeros r else l end.

(** All members; [fuel] bounds their number. *)
Fixpoint gz_members (fuel : nat) (l : list byte) : option (list byte) :=
  match l with
  | [] => Some []
  | _ =>
      match fuel with
      | O => None
      | S k =>
          if gz_magic l then
            match gz_member (S (8 * List.length l)) (mkB [] (skipn 2 l)) with
            | Some (d, s) =>
                match gz_members k (drop_zeros (b_bytes s)) with
                | Some r => Some (d ++ r)
                | None => None
                end
            | None => None
            end
          else None
      end
  end.

Definition gunzip (l : list byte) : option (list byte) := gz_members (List.length l) l.

(** ** A gzip writer with stored blocks (not in /repo; shows that every content has a gzip file) *)

Definition le4 (n : Z) : list byte :=
  [byte_of (n mod 256); byte_of (n / 256 mod 256); byte_of (n / 65536 mod 256); byte_of (n / 16777216)].
Definition gzip_store (l : list byte) : list byte :=
  [x1f; x8b; x08; x00; x00; x00; x00; x00; x00; xff] ++ store_blocks (List.length l) l ++
  le4 (crc32 l) ++ le4 (zlen l mod 4294967296).

(** ** The opened file

    A damaged file delivers some bytes ([salvage]) and then fails with some exception ([fault]);
    how many bytes come out before the failure depends on zlib's buffering and is left open:
    both are parameters of every theorem.  Only a file that does not even start with the gzip
    magic is known to deliver nothing and to raise BadGzipFile (an OSError). *)
Section Open.
Variable salvage : list byte -> list byte.
Variable fault : list byte -> exn.

Definition BadGzipFile : exn := IOErr 1.

Definition gzip_file (l : list byte) : file :=
  match l with
  | [] => plain []
  | _ => if gz_magic l then
           match gunzip l with
           | Some d => plain d
           | None => mkFile (salvage l) (Some (fault l))
           end
         else mkFile [] (Some BadGzipFile)
  end.
End Open.
