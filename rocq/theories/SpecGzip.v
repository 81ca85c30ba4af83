(** * gzip files: RFC 1952 (for C50)

    What a gzip file says, as a relation between the bytes of the file and the data, written from
    the RFC and independently of the reader.  Zero bytes between and after members are allowed. *)
From Coq Require Import List ZArith Bool.
From Coq Require Import Init.Byte.
From Verif Require Import PyBase SpecDeflate.
Import ListNotations.
Local Open Scope list_scope.
Local Open Scope Z_scope.

(** ** CRC-32: polynomials over GF(2), as numbers (bit [i] is the coefficient of x^i) *)

Fixpoint times_pos (p : positive) (g : Z) : Z :=
  match p with
  | xH => g
  | xO p => 2 * times_pos p g
  | xI p => Z.lxor (2 * times_pos p g) g
  end.
Definition times (q g : Z) : Z := match q with Zpos p => times_pos p g | _ => 0 end.

Definition crc_poly : Z :=
  2 ^ 32 + 2 ^ 26 + 2 ^ 23 + 2 ^ 22 + 2 ^ 16 + 2 ^ 12 + 2 ^ 11 + 2 ^ 10 + 2 ^ 8 + 2 ^ 7 + 2 ^ 5 + 2 ^ 4 + 2 ^ 2 + 2 ^ 1 + 2 ^ 0.

(** [r] is the remainder of the bits, as a polynomial (first bit: highest power) times x^32, with
    the first 32 bits inverted; the check value is [r] inverted, with its bits in reverse order. *)
Definition has_crc (l : list byte) (v : Z) : Prop :=
  exists q r, 0 <= q /\ 0 <= r < 2 ^ 32 /\ 0 <= v < 2 ^ 32 /\
    Z.lxor (msb_value (data_bits l) * 2 ^ 32) ((2 ^ 32 - 1) * 2 ^ zlen (data_bits l)) = Z.lxor (times q crc_poly) r /\
    forall i, 0 <= i < 32 -> Z.testbit v i = negb (Z.testbit r (31 - i)).

(** ** Members *)

Definition le32 (l : list byte) : Z := fold_right (fun b s => bval b + 256 * s) 0 l.
Definition flag_set (flags : byte) (n : Z) : Prop := Z.odd (bval flags / 2 ^ n) = true.

(** An optional part of the header. *)
Definition optional (present : Prop) (R : list byte -> Prop) (l : list byte) : Prop :=
  (present /\ R l) \/ (~ present /\ l = []).
Definition extra_field (l : list byte) : Prop := exists n e, l = n ++ e /\ zlen n = 2 /\ zlen e = le16 n.
Definition nul_text (l : list byte) : Prop := exists t, l = t ++ [x00] /\ ~ In x00 t.

(** The bytes [l] start with a member for the data [d]; [rest] follows. *)
Definition gzip_member (l d rest : list byte) : Prop :=
  exists flags fixed extra name comment hcrc body pad c n,
    l = [x1f; x8b; x08; flags] ++ fixed ++ extra ++ name ++ comment ++ hcrc ++ body /\
    zlen fixed = 6 /\
    optional (flag_set flags 2) extra_field extra /\
    optional (flag_set flags 3) nul_text name /\
    optional (flag_set flags 4) nul_text comment /\
    optional (flag_set flags 1) (fun h => zlen h = 2) hcrc /\
    zlen pad < 8 /\ zlen c = 4 /\ zlen n = 4 /\
    deflated [] (data_bits body) d (pad ++ data_bits (c ++ n ++ rest)) /\
    has_crc d (le32 c) /\ le32 n = zlen d mod 2 ^ 32.

Inductive gzip_data : list byte -> list byte -> Prop :=
| gz_end : gzip_data [] []
| gz_more l d k l' d' : gzip_member l d (repeat x00 k ++ l') -> gzip_data l' d' -> gzip_data l (d ++ d').
