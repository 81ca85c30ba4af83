(** * float.__repr__, as used by json.dumps (reader.py:112) for the c_float fields

    atop_2_6.py:138-140 lavg1/lavg5/lavg15, atop_2_7.py:115 frag, atop_2_8.py:338 occupancy and
    the like.  ctypes converts a c_float to the equal double; float.__repr__ of CPython
    (Objects/floatobject.c float_repr -> PyOS_double_to_string(x, 'r', 0, Py_DTSF_ADD_DOT_0), short
    float repr by Python/dtoa.c mode 0) prints the shortest decimal that reads back as that double,
    the closest such one.  Not part of /repo. *)
From Coq Require Import List ZArith Lia Bool String.
From Verif Require Import PyBase Model Parsers Json.
Import ListNotations.
Local Open Scope list_scope.
Local Open Scope Z_scope.

(** Decimal digits of a non-negative integer. *)
Definition digits_of (z : Z) : list Z := text (str_of_int z).

(** One attempt of dtoa: the double is [4 * M * 2^G] with [2^52 <= M < 2^53]; all decimals between
    [lo] and [hi] read back as it ([M] is even here).  The multiple of [10^k] between them that is
    closest to the double, if any.  Everything is scaled to integers. *)
Definition attempt (M G k : Z) : option Z :=
  let a := Z.max 0 (- G) in
  let b := Z.max 0 (- k) in
  let u := 2 ^ (G + a) * 10 ^ b in
  let q := 10 ^ (k + b) * 2 ^ a in
  let x := 4 * M * u in
  let lo := x - (if M =? 2 ^ 52 then 1 else 2) * u in
  let hi := x + 2 * u in
  let d := x / q in
  let r := x mod q in
  let down := lo <=? d * q in
  let up := (d + 1) * q <=? hi in
  if down && up then Some (if 2 * r <? q then d else if q <? 2 * r then d + 1 else d + d mod 2)
  else if down then Some d
  else if up then Some (d + 1)
  else None.

(** The decimal exponent: [10^p <= 4 * M * 2^G < 10^(p+1)]. *)
Definition exponent10 (M G : Z) : Z :=
  let num := 4 * M * 2 ^ Z.max 0 G in
  let den := 2 ^ Z.max 0 (- G) in
  if den <=? num then zlen (digits_of (num / den)) - 1
  else - zlen (digits_of ((den - 1) / num)).

(** Attempts with [n], [n+1], ... digits. *)
Fixpoint shortest (fuel : nat) (M G p n : Z) : option (Z * Z) :=
  match fuel with
  | O => None
  | S fuel => match attempt M G (p + 1 - n) with
              | Some d => Some (d, p + 1 - n)
              | None => shortest fuel M G p (n + 1)
              end
  end.

(** Remove trailing zeros. *)
Fixpoint drop_zeros (ds : list Z) : list Z :=
  match ds with c :: r => if c =? 48 then drop_zeros r else ds | [] => [] end.
Definition strip_zeros (ds : list Z) : list Z := rev (drop_zeros (rev ds)).

(** Python/pystrtod.c format_float_short for code 'r': the text of [d * 10^k], [d > 0]. *)
Definition format_short (d k : Z) : list Z :=
  let ds := strip_zeros (digits_of d) in
  let decpt := zlen (digits_of d) + k in
  if (-4 <? decpt) && (decpt <=? 16) then
    if decpt <=? 0 then [48; 46] ++ repeat 48 (Z.to_nat (- decpt)) ++ ds
    else if decpt <? zlen ds then ztake decpt ds ++ [46] ++ zdrop decpt ds
    else ds ++ repeat 48 (Z.to_nat (decpt - zlen ds)) ++ [46; 48]
  else
    let e := decpt - 1 in
    ztake 1 ds ++ (if 1 <? zlen ds then 46 :: zdrop 1 ds else []) ++
    [101; if e <? 0 then 45 else 43] ++ (if Z.abs e <? 10 then [48] else []) ++ digits_of (Z.abs e).

(** The significand and exponent of a finite binary32 without its sign. *)
Definition f32_significand (bits : Z) : Z :=
  if f32_exponent bits =? 0 then f32_mantissa bits else f32_mantissa bits + 2 ^ 23.
Definition f32_power (bits : Z) : Z :=
  if f32_exponent bits =? 0 then -149 else f32_exponent bits - 150.

(** The shortest decimal [(d, k)] of the positive double [m * 2^e], [0 < m < 2^24].  17 digits
    are always enough; should they not be, the exact value is taken. *)
Definition shortest_decimal (m e : Z) : Z * Z :=
  let s := 52 - Z.log2 m in
  let M := m * 2 ^ s in
  let G := e - s - 2 in
  match shortest 17 M G (exponent10 M G) 1 with
  | Some r => r
  | None => if e <? 0 then (m * 5 ^ (- e), e) else (m * 2 ^ e, 0)
  end.

(** [float.__repr__] of a finite c_float with the given bits. *)
Definition repr32 (bits : Z) : list Z :=
  (if bits <? 2 ^ 31 then [] else [45]) ++
  if f32_significand bits =? 0 then [48; 46; 48]
  else let (d, k) := shortest_decimal (f32_significand bits) (f32_power bits) in format_short d k.
