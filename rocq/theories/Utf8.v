(** * CPython's UTF-8 decoder

    Models [bytes.decode()] (strict: parsers/atop_1_26.py, every [.decode()]) and
    [bytes.decode(errors="ignore")] (utils.py:326).  Text is a list of code points.

    [u8_step] follows CPython's [utf8_decode] (Objects/stringlib/codecs.h) together with the
    error ranges of [unicode_decode_utf8]: it returns either a code point and the number of
    bytes it occupies, or the number of bytes that the error handler skips. *)
From Coq Require Import List ZArith Lia Bool.
From Coq Require Import Init.Byte.
From Verif Require Import PyBase.
Import ListNotations.
Open Scope Z_scope.

Inductive u8 :=
| U8Char (cp : Z) (n : nat)   (* a code point encoded in n bytes *)
| U8Bad (n : nat).            (* n undecodable bytes, n >= 1 *)

Definition is_cont (b : byte) : bool := (128 <=? bval b) && (bval b <? 192).

(** Second-byte restriction: E0 needs A0.., ED needs ..9F, F0 needs 90.., F4 needs ..8F. *)
Definition ok2_3 (c c2 : byte) : bool :=
  is_cont c2 && negb (if bval c2 <? 160 then bval c =? 224 else bval c =? 237).
Definition ok2_4 (c c2 : byte) : bool :=
  is_cont c2 && negb (if bval c2 <? 144 then bval c =? 240 else bval c =? 244).

Definition u8_step (l : list byte) : u8 :=
  match l with
  | [] => U8Bad 0
  | c :: r =>
      let v := bval c in
      if v <? 128 then U8Char v 1
      else if v <? 194 then U8Bad 1
      else if v <? 224 then
        match r with
        | [] => U8Bad 1
        | c2 :: _ =>
            if is_cont c2 then U8Char ((v - 192) * 64 + (bval c2 - 128)) 2 else U8Bad 1
        end
      else if v <? 240 then
        match r with
        | [] => U8Bad 1
        | c2 :: r2 =>
            if ok2_3 c c2 then
              match r2 with
              | [] => U8Bad 2
              | c3 :: _ =>
                  if is_cont c3
                  then U8Char ((v - 224) * 4096 + (bval c2 - 128) * 64 + (bval c3 - 128)) 3
                  else U8Bad 2
              end
            else U8Bad 1
        end
      else if v <? 245 then
        match r with
        | [] => U8Bad 1
        | c2 :: r2 =>
            if ok2_4 c c2 then
              match r2 with
              | [] => U8Bad 2
              | c3 :: r3 =>
                  if is_cont c3 then
                    match r3 with
                    | [] => U8Bad 3
                    | c4 :: _ =>
                        if is_cont c4
                        then U8Char ((v - 240) * 262144 + (bval c2 - 128) * 4096
                                     + (bval c3 - 128) * 64 + (bval c4 - 128)) 4
                        else U8Bad 3
                    end
                  else U8Bad 2
              end
            else U8Bad 1
        end
      else U8Bad 1
  end.

(** The decoding loop.  Every step consumes at least one byte, so the number of bytes is
    enough fuel ([decode_fuel_enough] in Utf8Proofs.v). *)
Fixpoint decode_ignore_fuel (fuel : nat) (l : list byte) : list Z :=
  match fuel, l with
  | _, [] => []
  | O, _ :: _ => []
  | S k, _ :: _ =>
      match u8_step l with
      | U8Char cp n => cp :: decode_ignore_fuel k (skipn n l)
      | U8Bad n => decode_ignore_fuel k (skipn n l)
      end
  end.

(** utils.py:326 [field_data.decode(errors="ignore")]. *)
Definition decode_ignore (l : list byte) : list Z := decode_ignore_fuel (List.length l) l.

Fixpoint decode_strict_fuel (fuel : nat) (l : list byte) : res (list Z) :=
  match fuel, l with
  | _, [] => Ok []
  | O, _ :: _ => Raise UnicodeDecodeError
  | S k, _ :: _ =>
      match u8_step l with
      | U8Char cp n => let? r := decode_strict_fuel k (skipn n l) in Ok (cp :: r)
      | U8Bad _ => Raise UnicodeDecodeError
      end
  end.

(** parsers/atop_1_26.py [.decode()]. *)
Definition decode_strict (l : list byte) : res (list Z) := decode_strict_fuel (List.length l) l.
