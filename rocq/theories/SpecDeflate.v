(** * Compressed data: RFC 1951 (DEFLATE), RFC 1950 (zlib) (for C41)

    What a compressed stream says, as relations between a stream of bits and the data, written
    from the RFCs and independently of the decompressor.  The acceptance rules for Huffman codes
    are zlib's (complete codes; a lone one-bit code; an unused code may be empty). *)
From Coq Require Import List ZArith Bool.
From Coq Require Import Init.Byte.
From Verif Require Import PyBase.
Import ListNotations.
Local Open Scope list_scope.
Local Open Scope Z_scope.

(** ** Bits (RFC 1951, 3.1.1) *)

(** Bytes are sent least significant bit first. *)
Definition byte_bits (b : byte) : list bool :=
  map (fun i => Z.odd (bval b / 2 ^ i)) [0; 1; 2; 3; 4; 5; 6; 7].
Definition data_bits (l : list byte) : list bool := flat_map byte_bits l.

(** Numbers other than Huffman codes: least significant bit first; Huffman codes: most
    significant bit first. *)
Fixpoint lsb_value (w : list bool) : Z :=
  match w with [] => 0 | b :: r => Z.b2z b + 2 * lsb_value r end.
Fixpoint msb_value (w : list bool) : Z :=
  match w with [] => 0 | b :: r => Z.b2z b * 2 ^ zlen r + msb_value r end.

(** ** Huffman codes given by code lengths (3.2.2); length 0: no code *)

Definition occurs (n : Z) (lens : list Z) : Z := zlen (filter (fun x => x =? n) lens).
Definition len_of (lens : list Z) (sym : Z) : Z := nth (Z.to_nat sym) lens 0.

(** The smallest code of length [n]. *)
Fixpoint first_code (lens : list Z) (n : nat) : Z :=
  match n with
  | O => 0
  | S k => 2 * (first_code lens k + match k with O => 0 | S _ => occurs (Z.of_nat k) lens end)
  end.

(** [w] is the code of [sym]: codes of one length are consecutive, in symbol order. *)
Definition is_code (lens : list Z) (sym : Z) (w : list bool) : Prop :=
  0 <= sym < zlen lens /\ 0 < len_of lens sym /\ zlen w = len_of lens sym /\
  msb_value w = first_code lens (Z.to_nat (len_of lens sym)) + occurs (len_of lens sym) (ztake sym lens).

(** The share of the code space that is used, out of 2^15. *)
Definition kraft (lens : list Z) : Z :=
  fold_right (fun n s => (if 0 <? n then 2 ^ (15 - n) else 0) + s) 0 lens.
Definition complete_code (lens : list Z) : Prop := kraft lens = 2 ^ 15.
Definition no_code (lens : list Z) : Prop := Forall (fun n => n = 0) lens.
(** Exactly one code, of one bit. *)
Definition lone_code (lens : list Z) : Prop := Forall (fun n => n = 0 \/ n = 1) lens /\ kraft lens = 2 ^ 14.

(** ** Lengths and distances (3.2.5): symbol, number of extra bits, smallest value *)

Inductive length_code : Z -> Z -> Z -> Prop :=
| lc_short sym : 257 <= sym <= 264 -> length_code sym 0 (sym - 254)
| lc_long e r : 1 <= e <= 5 -> 0 <= r < 4 -> length_code (261 + 4 * e + r) e (3 + (4 + r) * 2 ^ e)
| lc_max : length_code 285 0 258.

Inductive distance_code : Z -> Z -> Z -> Prop :=
| dc_short sym : 0 <= sym <= 3 -> distance_code sym 0 (sym + 1)
| dc_long e r : 1 <= e <= 13 -> 0 <= r < 2 -> distance_code (2 + 2 * e + r) e (1 + (2 + r) * 2 ^ e).

(** ** Compressed data of a block (3.2.3) *)

(** [out'] is [out] and [len] more bytes, each equal to the one [dist] before it. *)
Definition copied (out : list byte) (len dist : Z) (out' : list byte) : Prop :=
  exists m, out' = out ++ m /\ zlen m = len /\ dist <= zlen out /\
    forall i, zlen out <= i < zlen out + len ->
      nth_error out' (Z.to_nat i) = nth_error out' (Z.to_nat (i - dist)).

(** [tokens ll dl out w out']: after [out], the bits [w] extend the output to [out'], with literal
    and length codes [ll] and distance codes [dl]. *)
Inductive tokens (ll dl : list Z) : list byte -> list bool -> list byte -> Prop :=
| tk_end out w : is_code ll 256 w -> tokens ll dl out w out
| tk_literal out b w more out' : is_code ll (bval b) w ->
    tokens ll dl (out ++ [b]) more out' -> tokens ll dl out (w ++ more) out'
| tk_match out w sym e base x w' dsym e' base' y out1 more out' :
    is_code ll sym w -> length_code sym e base -> zlen x = e ->
    is_code dl dsym w' -> distance_code dsym e' base' -> zlen y = e' ->
    copied out (base + lsb_value x) (base' + lsb_value y) out1 ->
    tokens ll dl out1 more out' ->
    tokens ll dl out (w ++ x ++ w' ++ y ++ more) out'.

(** ** Fixed codes (3.2.6) *)

Definition fixed_lengths : list Z :=
  map (fun i => let s := Z.of_nat i in if s <=? 143 then 8 else if s <=? 255 then 9 else if s <=? 279 then 7 else 8)
      (seq 0 288).
Definition fixed_distances : list Z := repeat 5 32.

(** ** Code lengths sent with a block (3.2.7) *)

(** [runs cl ls w ls']: after the lengths [ls], the bits [w] extend them to [ls']. *)
Inductive runs (cl : list Z) : list Z -> list bool -> list Z -> Prop :=
| rn_end ls : runs cl ls [] ls
| rn_length ls n w more ls' : 0 <= n <= 15 -> is_code cl n w ->
    runs cl (ls ++ [n]) more ls' -> runs cl ls (w ++ more) ls'
| rn_repeat ls p w x more ls' : is_code cl 16 w -> zlen x = 2 ->
    runs cl ((ls ++ [p]) ++ repeat p (Z.to_nat (3 + lsb_value x))) more ls' -> runs cl (ls ++ [p]) (w ++ x ++ more) ls'
| rn_zeros ls w x more ls' : is_code cl 17 w -> zlen x = 3 ->
    runs cl (ls ++ repeat 0 (Z.to_nat (3 + lsb_value x))) more ls' -> runs cl ls (w ++ x ++ more) ls'
| rn_many_zeros ls w x more ls' : is_code cl 18 w -> zlen x = 7 ->
    runs cl (ls ++ repeat 0 (Z.to_nat (11 + lsb_value x))) more ls' -> runs cl ls (w ++ x ++ more) ls'.

(** The order in which the lengths of the code length code are sent. *)
Definition length_order : list Z := [16; 17; 18; 0; 8; 7; 9; 6; 10; 5; 11; 4; 12; 3; 13; 2; 14; 1; 15].

(** [w] is the header of a dynamic block with the given code lengths. *)
Definition dynamic_header (w : list bool) (ll dl : list Z) : Prop :=
  exists a b c raw r cl,
    w = a ++ b ++ c ++ List.concat raw ++ r /\
    zlen a = 5 /\ zlen b = 5 /\ zlen c = 4 /\
    zlen ll = lsb_value a + 257 /\ zlen ll <= 286 /\
    zlen dl = lsb_value b + 1 /\ zlen dl <= 30 /\
    zlen raw = lsb_value c + 4 /\ Forall (fun x => zlen x = 3) raw /\
    zlen cl = 19 /\
    (forall i, 0 <= i < 19 -> len_of cl (nth (Z.to_nat i) length_order 0) = lsb_value (nth (Z.to_nat i) raw [])) /\
    (no_code cl \/ complete_code cl) /\
    runs cl [] r (ll ++ dl) /\
    len_of ll 256 <> 0 /\
    (complete_code ll \/ lone_code ll) /\
    (no_code dl \/ complete_code dl \/ lone_code dl).

(** ** Blocks (3.2.3, 3.2.4).  The bits that follow belong to whole bytes exactly when their
    number is a multiple of 8. *)

Definition le16 (l : list byte) : Z := match l with [a; b] => bval a + 256 * bval b | _ => 0 end.

Inductive block : list byte -> list bool -> list byte -> list bool -> Prop :=
| bl_stored out pad n c m rest :
    zlen pad < 8 -> zlen rest mod 8 = 0 -> zlen n = 2 -> zlen c = 2 -> le16 c = 65535 - le16 n -> zlen m = le16 n ->
    block out ([false; false] ++ pad ++ data_bits (n ++ c ++ m) ++ rest) (out ++ m) rest
| bl_fixed out w out' rest :
    tokens fixed_lengths fixed_distances out w out' -> block out ([true; false] ++ w ++ rest) out' rest
| bl_dynamic out h ll dl w out' rest :
    dynamic_header h ll dl -> tokens ll dl out w out' -> block out ([false; true] ++ h ++ w ++ rest) out' rest.

(** [deflated out w out' rest]: the bits [w] are blocks, the last one marked final, that extend
    [out] to [out'], followed by [rest]. *)
Inductive deflated : list byte -> list bool -> list byte -> list bool -> Prop :=
| df_last out w out' rest : block out w out' rest -> deflated out (true :: w) out' rest
| df_more out w out1 rest1 out' rest : block out w out1 rest1 -> deflated out1 rest1 out' rest ->
    deflated out (false :: w) out' rest.

(** ** zlib streams (RFC 1950) *)

(** Adler-32: [A] is 1 plus the sum of the bytes, [B] the sum of the values of [A] after each
    byte, both modulo 65521. *)
Definition byte_sum (l : list byte) : Z := fold_right (fun b s => bval b + s) 0 l.
Fixpoint sums (a : Z) (l : list byte) : Z :=
  match l with [] => 0 | b :: r => (a + bval b) + sums (a + bval b) r end.
Definition adler (l : list byte) : Z := (sums 1 l mod 65521) * 65536 + (1 + byte_sum l) mod 65521.

(** [zlib_stream s d u]: [s] is a zlib stream for the data [d], followed by the bytes [u]. *)
Definition zlib_stream (s d u : list byte) : Prop :=
  exists cmf flg body pad a3 a2 a1 a0,
    s = cmf :: flg :: body /\
    (bval cmf * 256 + bval flg) mod 31 = 0 /\
    bval cmf mod 16 = 8 /\ bval cmf / 16 <= 7 /\ bval flg / 32 mod 2 = 0 /\
    zlen pad < 8 /\
    deflated [] (data_bits body) d (pad ++ data_bits (a3 :: a2 :: a1 :: a0 :: u)) /\
    bval a3 * 2 ^ 24 + bval a2 * 2 ^ 16 + bval a1 * 2 ^ 8 + bval a0 = adler d.
