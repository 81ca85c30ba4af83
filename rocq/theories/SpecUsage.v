(** * The line that README.md's first program prints for a sample (for C66, C68)

    README.md:89-90, for the integers [i] and [t]:
<<
  usage = 1 - i / t
  print(f'CPU usage was {usage:.02%}')
>>
    Every operation is rounded to the nearest double (SpecFloat.v). *)
From Coq Require Import List ZArith Bool String QArith Qabs.
From Verif Require Import PyBase Model Parsers SpecJson SpecFloat.
Import ListNotations.
Local Open Scope string_scope.
Local Open Scope list_scope.
Local Open Scope Z_scope.

(** [p] is the decimal text with two digits after the point that is nearest to [c >= 0], ties to
    even; no superfluous leading zero. *)
Definition two_decimals (c : Q) (p : list Z) : Prop :=
  exists i x y, p = i ++ [46; x; y] /\ i <> [] /\ forallb is_digit (i ++ [x; y]) = true /\ (hd 0 i = 48 -> i = [48]) /\
    let v := digits_value (i ++ [x; y]) in
    (Qabs ((v # 100) - c) <= 1 # 200)%Q /\ ((Qabs ((v # 100) - c) == 1 # 200)%Q -> Z.even v = true).

Definition usage_text (i t : Z) (s : list Z) : Prop :=
  exists a b c p,
    rounds_to (inject_Z i / inject_Z t) a /\ rounds_to (1 - a) b /\ rounds_to (100 * b) c /\
    two_decimals (Qabs c) p /\
    (s = text "CPU usage was " ++ p ++ text "%" /\ (0 <= 1 - a)%Q \/
     s = text "CPU usage was -" ++ p ++ text "%" /\ (1 - a < 0)%Q).

(** What the two numbers of a sample can be: a 64-bit counter, and the product of a 32-bit, a
    64-bit and a 16-bit number. *)
Definition usage_range (i t : Z) : Prop := - 2 ^ 63 <= i < 2 ^ 63 /\ Z.abs t < 2 ^ 112.

(** [line] gives the line for all such numbers. *)
Definition usage_lines_of (line : Z -> Z -> list Z) : Prop :=
  forall i t, usage_range i t -> t <> 0 -> usage_text i t (line i t).

(** The number that a line shows. *)
Definition shown_value (s : list Z) (v : Q) : Prop :=
  exists minus w x y, s = text "CPU usage was " ++ (if minus : bool then [45] else []) ++ w ++ [46; x; y] ++ text "%" /\
    w <> [] /\ forallb is_digit (w ++ [x; y]) = true /\
    (v == (if minus then -1 # 1 else 1 # 1) * (digits_value (w ++ [x; y]) # 100))%Q.
