(** * zlib.decompress

    Models CPython's [zlib.decompress(data)] (utils.py:208, 234, 269, 271): the zlib wrapper
    (RFC 1950), DEFLATE (RFC 1951) with zlib's own acceptance rules (inflate.c, inftrees.c), and
    the Adler-32 check.  [None] stands for zlib.error.  Bytes after the end of the stream are
    ignored by CPython; [inflate] returns them. *)
From Coq Require Import List ZArith Lia Bool.
From Coq Require Import Init.Byte.
From Verif Require Import PyBase.
Import ListNotations.
Open Scope Z_scope.

(** ** Bit reader *)

(** Unread bits of the current byte (least significant first), then whole bytes. *)
Record bst := mkB { b_bits : list bool; b_bytes : list byte }.

Definition P (A : Type) := bst -> option (A * bst).
Definition pret {A} (a : A) : P A := fun s => Some (a, s).
Definition pfail {A} : P A := fun _ => None.
Definition pbind {A B} (m : P A) (k : A -> P B) : P B :=
  fun s => match m s with Some (a, s') => k a s' | None => None end.
Notation "'let*' x ':=' m 'in' k" := (pbind m (fun x => k))
  (at level 200, x pattern, m at level 100, k at level 200).

Definition bits_of_byte (b : byte) : list bool :=
  let v := bval b in map (fun i => Z.testbit v i) [0; 1; 2; 3; 4; 5; 6; 7].

Definition getbit : P bool :=
  fun s => match b_bits s with
           | b :: r => Some (b, mkB r (b_bytes s))
           | [] => match b_bytes s with
                   | [] => None
                   | x :: xs =>
                       match bits_of_byte x with
                       | b :: r => Some (b, mkB r xs)
                       | [] => None
                       end
                   end
           end.

(** [n] bits, least significant first. *)
Fixpoint getbits (n : nat) : P Z :=
  match n with
  | O => pret 0
  | S k => let* b := getbit in let* v := getbits k in pret (Z.b2z b + 2 * v)
  end.

(** Skip to the next byte boundary. *)
Definition align : P unit := fun s => Some (tt, mkB [] (b_bytes s)).

(** One whole byte; only used on a byte boundary. *)
Definition getbyte : P byte :=
  fun s => match b_bytes s with
           | x :: xs => Some (x, mkB (b_bits s) xs)
           | [] => None
           end.

(** ** Huffman codes *)

(** Canonical code: number of codes of each length 1..15, and the symbols in code order. *)
Record huff := mkHuff { hf_counts : list Z; hf_syms : list Z }.

Definition lens_1_15 : list Z := [1; 2; 3; 4; 5; 6; 7; 8; 9; 10; 11; 12; 13; 14; 15].

Fixpoint number_from {A} (i : Z) (l : list A) : list (Z * A) :=
  match l with [] => [] | x :: r => (i, x) :: number_from (i + 1) r end.

(** Symbols whose code has length [n], in symbol order. *)
Definition syms_of_len (lens : list Z) (n : Z) : list Z :=
  map fst (filter (fun p => snd p =? n) (number_from 0 lens)).

Definition mk_huff (lens : list Z) : huff :=
  mkHuff (map (fun n => zlen (syms_of_len lens n)) lens_1_15)
         (flat_map (syms_of_len lens) lens_1_15).

(** inftrees.c:128-136: remaining code space, negative when over-subscribed ([None]). *)
Fixpoint code_space (counts : list Z) (space : Z) : option Z :=
  match counts with
  | [] => Some space
  | c :: r => let l := 2 * space - c in if l <? 0 then None else code_space r l
  end.

(** inftrees.c:115-137: no code at all is accepted (decoding then fails); otherwise the code
    must be complete, or, if [lone_ok], consist of a single 1-bit code. *)
Definition code_ok (lone_ok : bool) (h : huff) : bool :=
  match hf_syms h with
  | [] => true
  | _ => match code_space (hf_counts h) 1 with
         | None => false
         | Some space =>
             (space =? 0) || (lone_ok && forallb (fun c => c =? 0) (tl (hf_counts h)))
         end
  end.

(** Decode one symbol: [code] so far, [first] code of the current length. *)
Fixpoint decode_sym (counts syms : list Z) (code first : Z) : P Z :=
  match counts with
  | [] => pfail
  | c :: r =>
      let* b := getbit in
      let code := code + Z.b2z b in
      if code <? first + c then
        match nth_error syms (Z.to_nat (code - first)) with
        | Some s => pret s
        | None => pfail
        end
      else decode_sym r (zdrop c syms) (2 * code) (2 * (first + c))
  end.

Definition decode (h : huff) : P Z := decode_sym (hf_counts h) (hf_syms h) 0 0.

(** ** Tables *)

Definition len_base : list Z :=
  [3; 4; 5; 6; 7; 8; 9; 10; 11; 13; 15; 17; 19; 23; 27; 31; 35; 43; 51; 59; 67; 83; 99; 115;
   131; 163; 195; 227; 258].
Definition len_extra : list nat :=
  [0; 0; 0; 0; 0; 0; 0; 0; 1; 1; 1; 1; 2; 2; 2; 2; 3; 3; 3; 3; 4; 4; 4; 4; 5; 5; 5; 5; 0]%nat.
Definition dist_base : list Z :=
  [1; 2; 3; 4; 5; 7; 9; 13; 17; 25; 33; 49; 65; 97; 129; 193; 257; 385; 513; 769; 1025; 1537;
   2049; 3073; 4097; 6145; 8193; 12289; 16385; 24577].
Definition dist_extra : list nat :=
  [0; 0; 0; 0; 1; 1; 2; 2; 3; 3; 4; 4; 5; 5; 6; 6; 7; 7; 8; 8; 9; 9; 10; 10; 11; 11; 12; 12;
   13; 13]%nat.
Definition cl_order : list Z := [16; 17; 18; 0; 8; 7; 9; 6; 10; 5; 11; 4; 12; 3; 13; 2; 14; 1; 15].

Definition fixed_lit : huff :=
  mk_huff (repeat 8 144 ++ repeat 9 112 ++ repeat 7 24 ++ repeat 8 8).
Definition fixed_dist : huff := mk_huff (repeat 5 32).

(** ** Blocks; the output so far is kept reversed *)

(** Copy [n] bytes from [dist] back; [None] when that is before the start of the output. *)
Fixpoint copy_back (n : nat) (dist : Z) (out : list byte) : option (list byte) :=
  match n with
  | O => Some out
  | S k => match nth_error out (Z.to_nat (dist - 1)) with
           | Some b => copy_back k dist (b :: out)
           | None => None
           end
  end.

(** A base value plus extra bits, for symbol index [i]. *)
Definition with_extra (bases : list Z) (extras : list nat) (i : Z) : P Z :=
  match nth_error bases (Z.to_nat i), nth_error extras (Z.to_nat i) with
  | Some b, Some e => let* x := getbits e in pret (b + x)
  | _, _ => pfail
  end.

Definition byte_of (z : Z) : byte :=
  match Byte.of_N (Z.to_N z) with Some b => b | None => x00 end.

(** Literals and matches up to the end-of-block symbol. *)
Fixpoint codes_loop (fuel : nat) (lit dist : huff) (out : list byte) : P (list byte) :=
  match fuel with
  | O => pfail
  | S k =>
      let* s := decode lit in
      if s <? 256 then codes_loop k lit dist (byte_of s :: out)
      else if s =? 256 then pret out
      else
        let* len := with_extra len_base len_extra (s - 257) in
        let* ds := decode dist in
        let* d := with_extra dist_base dist_extra ds in
        match copy_back (Z.to_nat len) d out with
        | Some out' => codes_loop k lit dist out'
        | None => pfail
        end
  end.

Fixpoint getbytes_n (n : nat) (out : list byte) : P (list byte) :=
  match n with
  | O => pret out
  | S k => let* b := getbyte in getbytes_n k (b :: out)
  end.

(** Stored block: LEN, NLEN, data. *)
Definition stored (out : list byte) : P (list byte) :=
  let* _ := align in
  let* l0 := getbyte in
  let* l1 := getbyte in
  let* n0 := getbyte in
  let* n1 := getbyte in
  let len := bval l0 + 256 * bval l1 in
  let nlen := bval n0 + 256 * bval n1 in
  if len =? 65535 - nlen then getbytes_n (Z.to_nat len) out else pfail.

(** The 3-bit lengths of the code length code, in [cl_order]. *)
Fixpoint getcl (n : nat) : P (list Z) :=
  match n with
  | O => pret []
  | S k => let* x := getbits 3 in let* r := getcl k in pret (x :: r)
  end.

Definition cl_lens (raw : list Z) : list Z :=
  map (fun sym =>
         fold_right (fun p acc => if fst p =? sym then snd p else acc) 0 (combine cl_order raw))
      (map fst (number_from 0 (repeat tt 19))).

(** Run-length coded code lengths until [want] of them are present (reversed in [acc]). *)
Fixpoint getlens (fuel : nat) (h : huff) (want : Z) (acc : list Z) : P (list Z) :=
  match fuel with
  | O => pfail
  | S k =>
      if want <=? zlen acc then
        (if zlen acc =? want then pret (rev acc) else pfail)
      else
        let* s := decode h in
        if s <? 16 then getlens k h want (s :: acc)
        else if s =? 16 then
          match acc with
          | [] => pfail
          | p :: _ => let* x := getbits 2 in getlens k h want (repeat p (Z.to_nat (3 + x)) ++ acc)
          end
        else if s =? 17 then
          let* x := getbits 3 in getlens k h want (repeat 0 (Z.to_nat (3 + x)) ++ acc)
        else
          let* x := getbits 7 in getlens k h want (repeat 0 (Z.to_nat (11 + x)) ++ acc)
  end.

(** Dynamic block header (inflate.c TABLE..CODELENS). *)
Definition dynamic_codes : P (huff * huff) :=
  let* hlit := getbits 5 in
  let* hdist := getbits 5 in
  let* hclen := getbits 4 in
  let nlen := hlit + 257 in
  let ndist := hdist + 1 in
  if (286 <? nlen) || (30 <? ndist) then pfail else
  let* raw := getcl (Z.to_nat (hclen + 4)) in
  let clh := mk_huff (cl_lens raw) in
  if negb (code_ok false clh) then pfail else
  let* lens := getlens 320 clh (nlen + ndist) [] in
  let litlens := ztake nlen lens in
  let distlens := zdrop nlen lens in
  if nth 256 litlens 0 =? 0 then pfail else
  let lit := mk_huff litlens in
  let dist := mk_huff distlens in
  if code_ok true lit && code_ok true dist then pret (lit, dist) else pfail.

(** Blocks up to the final one. *)
Fixpoint blocks (fuel : nat) (sub : nat) (out : list byte) : P (list byte) :=
  match fuel with
  | O => pfail
  | S k =>
      let* final := getbit in
      let* ty := getbits 2 in
      let* out' :=
        (if ty =? 0 then stored out
         else if ty =? 1 then codes_loop sub fixed_lit fixed_dist out
         else if ty =? 2 then
           let* ld := dynamic_codes in codes_loop sub (fst ld) (snd ld) out
         else pfail) in
      if final : bool then pret out' else blocks k sub out'
  end.

(** Adler-32 (RFC 1950): the pair (A, B). *)
Definition adler_step (s : Z * Z) (b : byte) : Z * Z :=
  let a := (fst s + bval b) mod 65521 in (a, (snd s + a) mod 65521).
Definition adler32 (l : list byte) : Z :=
  let s := fold_left adler_step l (1, 0) in snd s * 65536 + fst s.

(** The whole stream: decompressed data and the reader state after it.  Every block and
    every symbol consumes at least one bit, so [fuel] = 8 * length + 1 suffices
    ([inflate_fuel_irrelevant] in InflateProofs.v). *)
Definition zstream (fuel : nat) : P (list byte) :=
  let* cmf := getbyte in
  let* flg := getbyte in
  if negb ((bval cmf * 256 + bval flg) mod 31 =? 0) then pfail
  else if negb (bval cmf mod 16 =? 8) then pfail
  else if 7 <? bval cmf / 16 then pfail
  else if negb (bval flg / 32 mod 2 =? 0) then pfail
  else
    let* out := blocks fuel fuel [] in
    let* _ := align in
    let* a3 := getbyte in
    let* a2 := getbyte in
    let* a1 := getbyte in
    let* a0 := getbyte in
    let data := rev out in
    if adler32 data =? ((bval a3 * 256 + bval a2) * 256 + bval a1) * 256 + bval a0
    then pret data else pfail.

(** Result and unused bytes. *)
Definition inflate (l : list byte) : option (list byte * list byte) :=
  match zstream (S (8 * List.length l)) (mkB [] l) with
  | Some (d, s) => Some (d, b_bytes s)
  | None => None
  end.

(** [zlib.decompress]. *)
Definition zdecompress (l : list byte) : option (list byte) :=
  match inflate l with Some (d, _) => Some d | None => None end.

(** ** A compressor: stored blocks only (not in /repo; shows that every payload has a stream) *)

Definition le2 (n : Z) : list byte := [byte_of (n mod 256); byte_of (n / 256)].
Definition be4 (n : Z) : list byte :=
  [byte_of (n / 16777216); byte_of (n / 65536 mod 256); byte_of (n / 256 mod 256); byte_of (n mod 256)].

Definition store_block (final : bool) (l : list byte) : list byte :=
  byte_of (Z.b2z final) :: le2 (zlen l) ++ le2 (65535 - zlen l) ++ l.

Fixpoint store_blocks (fuel : nat) (l : list byte) : list byte :=
  match fuel with
  | O => store_block true []
  | S k => if zlen l <=? 65535 then store_block true l
           else store_block false (ztake 65535 l) ++ store_blocks k (zdrop 65535 l)
  end.

Definition zstore (l : list byte) : list byte :=
  [byte_of 120; byte_of 1] ++ store_blocks (List.length l) l ++ be4 (adler32 l).
