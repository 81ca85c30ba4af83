(** * JSON texts (RFC 8259), independently of json.dumps

    A reader for JSON documents given as lists of code points.  Numbers are kept as their
    text, which [is_number] checks against the grammar; [int_text] gives the value of a number
    without fraction and exponent. *)
From Coq Require Import List ZArith Bool String.
From Verif Require Import PyBase Model.
Import ListNotations.
Local Open Scope Z_scope.

Inductive jtree :=
| TNum (t : list Z)
| TStr (s : list Z)
| TList (l : list jtree)
| TObj (l : list (list Z * jtree))
| TTrue | TFalse | TNull.

(** ** Numbers: [-] int [frac] [exp] *)

Definition is_digit (c : Z) : bool := (48 <=? c) && (c <=? 57).

Fixpoint skip_digits (s : list Z) : list Z :=
  match s with c :: r => if is_digit c then skip_digits r else s | [] => [] end.

(** At least one digit. *)
Definition some_digits (s : list Z) : option (list Z) :=
  match s with c :: r => if is_digit c then Some (skip_digits r) else None | [] => None end.

Definition skip_int (s : list Z) : option (list Z) :=
  match s with
  | c :: r => if c =? 48 then Some r else if is_digit c then Some (skip_digits r) else None
  | [] => None
  end.
Definition skip_frac (s : list Z) : option (list Z) :=
  match s with c :: r => if c =? 46 then some_digits r else Some s | [] => Some [] end.
Definition skip_exp (s : list Z) : option (list Z) :=
  match s with
  | c :: r =>
      if (c =? 101) || (c =? 69) then
        match r with
        | d :: r' => if (d =? 43) || (d =? 45) then some_digits r' else some_digits r
        | [] => None
        end
      else Some s
  | [] => Some []
  end.
Definition is_number (s : list Z) : bool :=
  let s := match s with c :: r => if c =? 45 then r else s | [] => s end in
  match skip_int s with
  | Some s => match skip_frac s with
              | Some s => match skip_exp s with Some [] => true | _ => false end
              | None => false
              end
  | None => false
  end.

(** Value of a number written with digits only, after an optional minus sign. *)
Definition digits_value (s : list Z) : Z := fold_left (fun a c => 10 * a + (c - 48)) s 0.
Definition int_text (s : list Z) : option Z :=
  if is_number s then
    match s with
    | c :: r => if c =? 45 then if forallb is_digit r then Some (- digits_value r) else None
                else if forallb is_digit s then Some (digits_value s) else None
    | [] => None
    end
  else None.

(** Characters that can occur in a number: a number text is maximal. *)
Definition number_char (c : Z) : bool :=
  is_digit c || (c =? 43) || (c =? 45) || (c =? 46) || (c =? 101) || (c =? 69).
Fixpoint number_prefix (s : list Z) : list Z * list Z :=
  match s with
  | c :: r => if number_char c then let (t, q) := number_prefix r in (c :: t, q) else ([], s)
  | [] => ([], [])
  end.

(** ** Strings *)

Definition hex_value (c : Z) : option Z :=
  if is_digit c then Some (c - 48)
  else if (97 <=? c) && (c <=? 102) then Some (c - 87)
  else if (65 <=? c) && (c <=? 70) then Some (c - 55)
  else None.
Definition hex4 (s : list Z) : option (Z * list Z) :=
  match s with
  | a :: b :: c :: d :: r =>
      match hex_value a, hex_value b, hex_value c, hex_value d with
      | Some a, Some b, Some c, Some d => Some (4096 * a + 256 * b + 16 * c + d, r)
      | _, _, _, _ => None
      end
  | _ => None
  end.

(** One escape, after the backslash. *)
Definition escape (s : list Z) : option (Z * list Z) :=
  match s with
  | c :: r =>
      if c =? 34 then Some (34, r) else if c =? 92 then Some (92, r) else if c =? 47 then Some (47, r)
      else if c =? 98 then Some (8, r) else if c =? 102 then Some (12, r) else if c =? 110 then Some (10, r)
      else if c =? 114 then Some (13, r) else if c =? 116 then Some (9, r)
      else if c =? 117 then
        match hex4 r with
        | Some (h, r') =>
            if (55296 <=? h) && (h <? 56320) then
              match r' with
              | b :: u :: r'' =>
                  if (b =? 92) && (u =? 117) then
                    match hex4 r'' with
                    | Some (l, q) =>
                        if (56320 <=? l) && (l <? 57344)
                        then Some (65536 + 1024 * (h - 55296) + (l - 56320), q)
                        else Some (h, r')
                    | None => Some (h, r')
                    end
                  else Some (h, r')
              | _ => Some (h, r')
              end
            else Some (h, r')
        | None => None
        end
      else None
  | [] => None
  end.

(** The rest of a string, after the opening quote. *)
Fixpoint string_rest (n : nat) (s : list Z) : option (list Z * list Z) :=
  match n with
  | O => None
  | S n =>
      match s with
      | c :: r =>
          if c =? 34 then Some ([], r)
          else if c <? 32 then None
          else if c =? 92 then
            match escape r with
            | Some (x, r') => match string_rest n r' with Some (l, q) => Some (x :: l, q) | None => None end
            | None => None
            end
          else match string_rest n r with Some (l, q) => Some (c :: l, q) | None => None end
      | [] => None
      end
  end.

(** ** Values *)

Fixpoint skip_ws (s : list Z) : list Z :=
  match s with
  | c :: r => if (c =? 32) || (c =? 10) || (c =? 13) || (c =? 9) then skip_ws r else s
  | [] => []
  end.

Definition literal (w s : list Z) : option (list Z) :=
  if list_eq_dec Z.eq_dec (firstn (List.length w) s) w then Some (skipn (List.length w) s) else None.

Definition atom (s : list Z) : option (jtree * list Z) :=
  match literal [116; 114; 117; 101] s with Some r => Some (TTrue, r) | None =>
  match literal [102; 97; 108; 115; 101] s with Some r => Some (TFalse, r) | None =>
  match literal [110; 117; 108; 108] s with Some r => Some (TNull, r) | None =>
  let (t, r) := number_prefix s in if is_number t then Some (TNum t, r) else None
  end end end.

(** [n] bounds the number of nested and repeated calls. *)
Fixpoint value (n : nat) (s : list Z) : option (jtree * list Z) :=
  match n with
  | O => None
  | S n =>
      match skip_ws s with
      | [] => None
      | c :: r =>
          if c =? 34 then match string_rest (List.length r) r with Some (x, q) => Some (TStr x, q) | None => None end
          else if c =? 91 then
            match skip_ws r with
            | [] => None
            | d :: q => if d =? 93 then Some (TList [], q)
                        else match elements n r with Some (l, q) => Some (TList l, q) | None => None end
            end
          else if c =? 123 then
            match skip_ws r with
            | [] => None
            | d :: q => if d =? 125 then Some (TObj [], q)
                        else match members n r with Some (l, q) => Some (TObj l, q) | None => None end
            end
          else atom (c :: r)
      end
  end
with elements (n : nat) (s : list Z) : option (list jtree * list Z) :=
  match n with
  | O => None
  | S n =>
      match value n s with
      | None => None
      | Some (v, r) =>
          match skip_ws r with
          | [] => None
          | d :: q => if d =? 93 then Some ([v], q)
                      else if d =? 44 then
                        match elements n q with Some (l, q') => Some (v :: l, q') | None => None end
                      else None
          end
      end
  end
with members (n : nat) (s : list Z) : option (list (list Z * jtree) * list Z) :=
  match n with
  | O => None
  | S n =>
      match skip_ws s with
      | [] => None
      | c :: r =>
          if c =? 34 then
            match string_rest (List.length r) r with
            | None => None
            | Some (k, r1) =>
                match skip_ws r1 with
                | [] => None
                | col :: r2 =>
                    if col =? 58 then
                      match value n r2 with
                      | None => None
                      | Some (v, r3) =>
                          match skip_ws r3 with
                          | [] => None
                          | d :: q => if d =? 125 then Some ([(k, v)], q)
                                      else if d =? 44 then
                                        match members n q with Some (l, q') => Some ((k, v) :: l, q') | None => None end
                                      else None
                          end
                      end
                    else None
                end
            end
          else None
      end
  end.

(** A JSON document. *)
Definition json_doc (s : list Z) : option jtree :=
  match value (S (List.length s)) s with
  | Some (v, r) => match skip_ws r with [] => Some v | _ => None end
  | None => None
  end.

(** ** When a document says the same as a Python value *)

(** Code points of a key or other ASCII text. *)
Definition codes (s : string) : list Z :=
  map (fun c => Z.of_nat (Ascii.nat_of_ascii c)) (list_ascii_of_string s).

(** [float_text b t]: [t] is an acceptable text for the float with bit pattern [b]. *)
Fixpoint says (float_text : Z -> list Z -> Prop) (t : jtree) (j : json) {struct j} : Prop :=
  match j with
  | JInt z => exists x, t = TNum x /\ int_text x = Some z
  | JFloat b => exists x, t = TNum x /\ float_text b x
  | JStr s => t = TStr s
  | JRaw => False
  | JList js =>
      exists ts, t = TList ts /\
      (fix go (js : list json) (ts : list jtree) {struct js} : Prop :=
         match js, ts with
         | [], [] => True
         | j :: js', t :: ts' => says float_text t j /\ go js' ts'
         | _, _ => False
         end) js ts
  | JDict d =>
      exists ts, t = TObj ts /\
      (fix go (js : list (string * json)) (ts : list (list Z * jtree)) {struct js} : Prop :=
         match js, ts with
         | [], [] => True
         | (k, j) :: js', (k', t) :: ts' => k' = codes k /\ says float_text t j /\ go js' ts'
         | _, _ => False
         end) d ts
  end.

(** Floats by bit pattern of the binary32 value: exponent field all ones is not finite. *)
Definition finite32 (bits : Z) : Prop := bits / 8388608 mod 256 <> 255.

(** [P] of every float of a value. *)
Fixpoint all_floats (P : Z -> Prop) (j : json) {struct j} : Prop :=
  match j with
  | JFloat b => P b
  | JList l => (fix go (l : list json) : Prop := match l with [] => True | j :: r => all_floats P j /\ go r end) l
  | JDict d => (fix go (l : list (string * json)) : Prop :=
                  match l with [] => True | (_, j) :: r => all_floats P j /\ go r end) d
  | _ => True
  end.
