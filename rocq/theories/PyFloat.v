(** * Python floats, as far as README.md:89-90 uses them

    Integer division, subtraction from an integer, and the format ".02%".  A float is a finite
    IEEE binary64 with its sign, significand and exponent; results are correctly rounded (ties to
    even).  Results that would be subnormal or near overflow are not given a meaning.  What this
    models of CPython: Objects/longobject.c long_true_divide, Objects/floatobject.c float_sub,
    Python/formatter_unicode.c format_float_internal (for '%' the value is multiplied by 100 as a
    float, then shown as by 'f'), Python/dtoa.c mode 3 (correctly rounded, ties to even).  Not
    part of /repo. *)
From Coq Require Import List ZArith Bool String.
From Verif Require Import PyBase Model Parsers.
Import ListNotations.
Local Open Scope list_scope.
Local Open Scope Z_scope.

(** [(-1)^neg * m * 2^e] *)
Record double := mkD { d_neg : bool; d_sig : Z; d_exp : Z }.

(** [n / d] as an integer, ties to even ([d > 0]). *)
Definition div_even (n d : Z) : Z :=
  let q := n / d in
  let r := n mod d in
  if 2 * r <? d then q else if d <? 2 * r then q + 1 else q + q mod 2.

(** [n / d / 2^e] as a fraction. *)
Definition scale_num (n e : Z) : Z := n * 2 ^ Z.max 0 (- e).
Definition scale_den (d e : Z) : Z := d * 2 ^ Z.max 0 e.

(** The exponent [e] with [2^52 <= n / d / 2^e < 2^53]. *)
Definition binade (n d : Z) : Z :=
  let e := Z.log2 n - Z.log2 d - 52 in
  if scale_num n e <? 2 ^ 52 * scale_den d e then e - 1 else e.

(** The double nearest to [n / d], for [n >= 0], [d > 0]: significand and exponent. *)
Definition round_pos (n d : Z) : option (Z * Z) :=
  if n =? 0 then Some (0, 0)
  else
    let e := binade n d in
    let m := div_even (scale_num n e) (scale_den d e) in
    let '(m, e) := if m =? 2 ^ 53 then (2 ^ 52, e + 1) else (m, e) in
    if (-900 <=? e) && (e <=? 900) then Some (m, e) else None.

Definition round_signed (neg : bool) (n d : Z) : option double :=
  match round_pos n d with Some (m, e) => Some (mkD neg m e) | None => None end.

(** The numerator of a float over the denominator [2^max(0, -e)]. *)
Definition d_num (x : double) : Z :=
  (if d_neg x then -1 else 1) * d_sig x * 2 ^ Z.max 0 (d_exp x).
Definition d_den (x : double) : Z := 2 ^ Z.max 0 (- d_exp x).

(** [x / y] on integers, [y <> 0]. *)
Definition int_div (x y : Z) : option double :=
  round_signed (xorb (x <? 0) (y <? 0)) (Z.abs x) (Z.abs y).

(** [x - y] on an integer and a float; the integer must be a double. A zero result is 0.0. *)
Definition int_sub (x : Z) (y : double) : option double :=
  if Z.abs x <=? 2 ^ 53 then
    let n := x * d_den y - d_num y in round_signed (n <? 0) (Z.abs n) (d_den y)
  else None.

(** [100.0 * x] *)
Definition times_100 (x : double) : option double :=
  round_signed (d_neg x) (100 * Z.abs (d_num x)) (d_den x).

(** [h / 100] with two decimals. *)
Definition hundredths (h : Z) : list Z :=
  text (str_of_int (h / 100)) ++ [46; 48 + h / 10 mod 10; 48 + h mod 10].
Definition fixed_2 (x : double) : list Z :=
  (if d_neg x then [45] else []) ++ hundredths (div_even (100 * Z.abs (d_num x)) (d_den x)).

(** [format(x, ".02%")] *)
Definition percent_2 (x : double) : option (list Z) :=
  match times_100 x with Some y => Some (fixed_2 y ++ [37]) | None => None end.
