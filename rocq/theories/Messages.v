(** * The texts of the library's own exceptions

    [str(e)] for the two ValueErrors that /repo raises itself.  (The texts of exceptions raised
    by ctypes, zlib or the interpreter are not modelled.) *)
From Coq Require Import List ZArith Lia Bool String.
From Verif Require Import PyBase Model Parsers Json.
Import ListNotations.
Local Open Scope string_scope.
Local Open Scope list_scope.
Local Open Scope Z_scope.

(** [hex(n)] for n >= 0 (utils.py:151): lower case, no leading zeros; [fuel] digits suffice. *)
Fixpoint hex_digits (fuel : nat) (n : Z) (acc : list Z) : list Z :=
  match fuel with
  | O => acc
  | S k => let acc := hexdigit (n mod 16) :: acc in
           if n <? 16 then acc else hex_digits k (n / 16) acc
  end.
Definition py_hex (n : Z) : list Z := text "0x" ++ hex_digits (S (Z.to_nat (Z.log2 n))) n [].

(** [repr] of a tuple of [sizes] (shared.py:47-57); the names contain no quotes or escapes. *)
Definition repr_tuple (s : string * Z * Z) : list Z :=
  let '(name, found, expected) := s in
  text "('" ++ text name ++ text "', " ++ text (str_of_int found) ++ text ", " ++
  text (str_of_int expected) ++ text ")".

(** [repr] of the list. *)
Fixpoint repr_tuples (l : list (string * Z * Z)) : list Z :=
  match l with
  | [] => []
  | [s] => repr_tuple s
  | s :: r => repr_tuple s ++ text ", " ++ repr_tuples r
  end.

(** utils.py:151 and shared.py:59-61. *)
Definition message (e : exn) : option (list Z) :=
  match e with
  | ValueError (BadMagic m) =>
      Some (text "File does not contain raw atop output (wrong magic number): " ++ py_hex m)
  | ValueError (Incompatible sizes) =>
      Some (text "File has incompatible Atop format. Struct length evaluations (type, found, expected): " ++
            text "[" ++ repr_tuples sizes ++ text "]")
  | _ => None
  end.
