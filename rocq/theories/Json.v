(** * json.dumps as used by reader.py:112

    The printed text as a list of code points (all of them ASCII: [ensure_ascii] is on). *)
From Coq Require Import List ZArith Lia Bool String.
From Verif Require Import PyBase Model Parsers.
Import ListNotations.
Local Open Scope string_scope.
Local Open Scope list_scope.
Local Open Scope Z_scope.

Section Dumps.

(** [float.__repr__] of the finite double equal to a finite c_float with the given bits. *)
Variable float_repr : Z -> list Z.

(** c_float bit pattern classification: exponent field all ones. *)
Definition f32_exponent (bits : Z) : Z := (bits / 2 ^ 23) mod 256.
Definition f32_mantissa (bits : Z) : Z := bits mod 2 ^ 23.
Definition f32_finite (bits : Z) : bool := negb (f32_exponent bits =? 255).

(** json.encoder floatstr: NaN, Infinity, -Infinity or float.__repr__. *)
Definition dump_float (bits : Z) : list Z :=
  if f32_finite bits then float_repr bits
  else if negb (f32_mantissa bits =? 0) then text "NaN"
  else if 2 ^ 31 <=? bits then text "-Infinity"
  else text "Infinity".

Definition hexdigit (d : Z) : Z := if d <? 10 then 48 + d else 87 + d.

(** ["\\u{0:04x}".format(n)] for n < 0x10000 *)
Definition u_escape (n : Z) : list Z :=
  [92; 117; hexdigit (n / 4096 mod 16); hexdigit (n / 256 mod 16);
   hexdigit (n / 16 mod 16); hexdigit (n mod 16)].

(** json.encoder.py_encode_basestring_ascii, one character. *)
Definition dump_char (c : Z) : list Z :=
  if c =? 34 then [92; 34]            (* quote *)
  else if c =? 92 then [92; 92]       (* \\ *)
  else if c =? 10 then [92; 110]      (* newline *)
  else if c =? 13 then [92; 114]      (* CR *)
  else if c =? 9 then [92; 116]       (* tab *)
  else if c =? 12 then [92; 102]      (* form feed *)
  else if c =? 8 then [92; 98]        (* backspace *)
  else if (32 <=? c) && (c <=? 126) then [c]
  else if c <? 65536 then u_escape c
  else u_escape (55296 + (c - 65536) / 1024) ++ u_escape (56320 + (c - 65536) mod 1024).

Definition dump_str (s : list Z) : list Z := [34] ++ flat_map dump_char s ++ [34].

(** Newline and indentation, when [indent=2]. *)
Definition newline (indent : bool) (level : nat) : list Z :=
  if indent then 10 :: repeat 32 (2 * level) else [].

(** Separator between items: "," + newline with indent, ", " without. *)
Definition item_sep (indent : bool) (level : nat) : list Z :=
  if indent then 44 :: newline indent level else [44; 32].

(** json.dumps(value, indent=2 or None); [None] is the TypeError for an object json cannot
    serialise. *)
Fixpoint dumps (indent : bool) (level : nat) (j : json) {struct j} : option (list Z) :=
  match j with
  | JInt z => Some (text (str_of_int z))
  | JFloat b => Some (dump_float b)
  | JStr s => Some (dump_str s)
  | JRaw => None
  | JList [] => Some [91; 93]
  | JList (x :: r) =>
      match dumps indent (S level) x with
      | None => None
      | Some tx =>
          match (fix go (l : list json) : option (list Z) :=
                   match l with
                   | [] => Some []
                   | y :: l' =>
                       match dumps indent (S level) y, go l' with
                       | Some ty, Some tl => Some (item_sep indent (S level) ++ ty ++ tl)
                       | _, _ => None
                       end
                   end) r with
          | None => None
          | Some tr => Some ([91] ++ newline indent (S level) ++ tx ++ tr ++ newline indent level ++ [93])
          end
      end
  | JDict [] => Some [123; 125]
  | JDict ((k, x) :: r) =>
      match dumps indent (S level) x with
      | None => None
      | Some tx =>
          match (fix go (l : list (string * json)) : option (list Z) :=
                   match l with
                   | [] => Some []
                   | (k', y) :: l' =>
                       match dumps indent (S level) y, go l' with
                       | Some ty, Some tl =>
                           Some (item_sep indent (S level) ++ dump_str (text k') ++ [58; 32] ++ ty ++ tl)
                       | _, _ => None
                       end
                   end) r with
          | None => None
          | Some tr =>
              Some ([123] ++ newline indent (S level) ++ dump_str (text k) ++ [58; 32] ++ tx ++ tr
                      ++ newline indent level ++ [125])
          end
      end
  end.

End Dumps.
