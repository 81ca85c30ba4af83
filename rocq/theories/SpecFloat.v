(** * Numbers in JSON texts and the floats they are read as (for C42) *)
From Coq Require Import List ZArith Bool QArith Qabs Qpower.
From Verif Require Import PyBase SpecJson.
Import ListNotations.
Local Open Scope list_scope.
Local Open Scope Z_scope.

(** [d * 10^k] and [m * 2^e]. *)
Definition dec_q (d k : Z) : Q := (inject_Z d * (10 # 1) ^ k)%Q.
Definition bin_q (m e : Z) : Q := (inject_Z m * (2 # 1) ^ e)%Q.

(** The leading digits of a text and what follows. *)
Fixpoint take_digits (s : list Z) : list Z * list Z :=
  match s with
  | c :: r => if is_digit c then let (d, q) := take_digits r in (c :: d, q) else ([], s)
  | [] => ([], [])
  end.

(** The exponent part of a number: nothing, e5, e+5 or e-5. *)
Definition exponent_value (s : list Z) : Z :=
  match s with
  | _ :: sign :: r => if sign =? 45 then - digits_value r
                      else if sign =? 43 then digits_value r else digits_value (sign :: r)
  | _ => 0
  end.

(** The value of a JSON number. *)
Definition unsigned_value (s : list Z) : Q :=
  let (i, s1) := take_digits s in
  let (f, s2) := match s1 with c :: r => if c =? 46 then take_digits r else ([], s1) | [] => ([], []) end in
  dec_q (digits_value (i ++ f)) (exponent_value s2 - zlen f).
Definition number_value (s : list Z) : Q :=
  match s with
  | c :: r => if c =? 45 then (- unsigned_value r)%Q else unsigned_value s
  | [] => 0%Q
  end.

(** Finite IEEE binary64 values, and those with an even significand. *)
Definition is_double (x : Q) : Prop :=
  exists m e, Z.abs m < 2 ^ 53 /\ -1074 <= e <= 971 /\ (x == bin_q m e)%Q.
Definition even_double (x : Q) : Prop :=
  exists m e, Z.abs m < 2 ^ 53 /\ -1074 <= e <= 971 /\ (2 ^ 52 <= Z.abs m \/ e = -1074) /\
              Z.even m = true /\ (x == bin_q m e)%Q.

(** Reading the number [q] as a double gives [x]: the nearest double, ties to even. *)
Definition rounds_to (q x : Q) : Prop :=
  is_double x /\
  forall y, is_double y -> ~ (y == x)%Q ->
    (Qabs (q - x) < Qabs (q - y))%Q \/
    ((Qabs (q - x) == Qabs (q - y))%Q /\ even_double x /\ ~ even_double y).

(** The value of a finite IEEE binary32 with the given bits: its sign, and significand and exponent. *)
Definition negative32 (bits : Z) : Prop := 2147483648 <= bits.
Definition value32 (bits : Z) : Q :=
  let e := bits / 8388608 mod 256 in
  let f := bits mod 8388608 in
  let x := if e =? 0 then bin_q f (-149) else bin_q (8388608 + f) (e - 150) in
  if bits <? 2147483648 then x else (- x)%Q.

(** [t] is a JSON number, not an integer, that is read as exactly the float with bits [b]; the
    minus sign is there exactly when the float has it (so -0.0 is not 0.0). *)
Definition reads_as_float (b : Z) (t : list Z) : Prop :=
  is_number t = true /\ int_text t = None /\
  rounds_to (number_value t) (value32 b) /\
  (hd 0 t = 45 <-> negative32 b).
