(** * The significant digits of a number text (for C42) *)
From Coq Require Import List ZArith Bool.
From Verif Require Import PyBase SpecJson SpecFloat.
Import ListNotations.
Local Open Scope list_scope.
Local Open Scope Z_scope.

(** The digits of a number before and after its point, without its sign and exponent. *)
Definition unsigned (t : list Z) : list Z := match t with c :: r => if c =? 45 then r else t | [] => [] end.
Definition mantissa (s : list Z) : list Z :=
  let (i, s1) := take_digits s in
  let (f, _) := match s1 with c :: r => if c =? 46 then take_digits r else ([], s1) | [] => ([], []) end in
  i ++ f.

(** Those from the first to the last that is not 0: 0.00120 has two, 1e22 has one, 0.0 none. *)
Fixpoint trim (l : list Z) : list Z := match l with c :: r => if c =? 48 then trim r else l | [] => [] end.
Definition significant (t : list Z) : Z := zlen (trim (rev (trim (mantissa (unsigned t))))).

(** Written with an exponent. *)
Definition has_exponent (t : list Z) : Prop := In 101 t \/ In 69 t.
