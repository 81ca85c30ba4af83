(** * The command line (reader.py:18-58, 115-126)

    [parse_args] hands [sys.argv[1:]] to argparse.  This file models the part of CPython 3.11's
    Lib/argparse.py that this parser definition reaches: one positional with nargs="+", one option
    with nargs="+" and choices, three store_true options and -h; prefix abbreviations, "="
    arguments, clustered short options, "--", negative-number-like words.  Arguments are lists of
    code points.  The texts of the help and error messages are not modelled, only that the
    program exits with status 0 or 2. *)
From Coq Require Import List ZArith Lia Bool String.
From Coq Require Import Init.Byte.
From Verif Require Import PyBase Model Parsers Json Reader.
Import ListNotations.
Local Open Scope string_scope.
Local Open Scope list_scope.
Local Open Scope Z_scope.

Notation arg := (list Z).

Fixpoint arg_eqb (a b : arg) : bool :=
  match a, b with
  | [], [] => true
  | x :: a', y :: b' => (x =? y) && arg_eqb a' b'
  | _, _ => false
  end.

(** The optional arguments of reader.py:24-56, and the -h that argparse adds first. *)
Inductive act := AHelp | AParseables | APretty | ATstats | ACstats.

(** argparse [_option_string_actions], in insertion order (reader.py:24-56). *)
Definition option_strings : list (arg * act) :=
  [(text "-h", AHelp); (text "--help", AHelp);
   (text "-P", AParseables); (text "--parseables", AParseables);
   (text "-p", APretty); (text "--pretty-print", APretty);
   (text "--tstats", ATstats); (text "--cstats", ACstats)].

Fixpoint find_option (a : arg) (l : list (arg * act)) : option act :=
  match l with
  | [] => None
  | (o, x) :: r => if arg_eqb a o then Some x else find_option a r
  end.

(** [s.partition("=")]: the part before the first "=", and what follows it if there is one. *)
Fixpoint partition_eq (a : arg) : arg * option arg :=
  match a with
  | [] => ([], None)
  | c :: r => if c =? 61 then ([], Some r)
              else let '(p, q) := partition_eq r in (c :: p, q)
  end.

(** What argparse calls an option tuple.  [o_short]: the option string's second character is not
    "-".  [o_eq]: the separator is "=".  [o_explicit]: the explicit argument. *)
Record otuple := mkO { o_act : option act; o_short : bool; o_eq : bool; o_explicit : option arg }.

Definition is_short (a : arg) : bool :=
  match a with _ :: c :: _ => negb (c =? 45) | _ => true end.

(** Lib/argparse.py [_get_option_tuples]: the options that [a] abbreviates, or whose one-letter
    name is followed by an argument. *)
Definition option_tuples (a : arg) : list otuple :=
  if is_short a then
    flat_map (fun '(o, x) =>
                if arg_eqb o (firstn 2 a) then [mkO (Some x) (is_short o) false (Some (skipn 2 a))]
                else if starts_with a o then [mkO (Some x) (is_short o) false None]
                else []) option_strings
  else
    let '(p, e) := partition_eq a in
    flat_map (fun '(o, x) =>
                if starts_with p o
                then [mkO (Some x) (is_short o) (match e with Some _ => true | None => false end) e]
                else []) option_strings.

(** How one argument string is classified: a plain argument, an option, or an ambiguous option
    (argparse exits). *)
Inductive word := WArg | WDashes | WOption (t : otuple).

Section Digits.
(** Which characters [\d] matches in a Python regular expression: the Unicode decimal digits. *)
Variable is_digit : Z -> bool.

(** [^-\d+$] or [^-\d*\.\d+$]; [$] also matches before a final newline. *)
Definition chop_newline (a : arg) : arg :=
  match rev a with 10 :: r => rev r | _ => a end.
Fixpoint skip_digits (a : arg) : arg :=
  match a with c :: r => if is_digit c then skip_digits r else a | [] => [] end.
Definition all_digits (a : arg) : bool :=
  match a with [] => false | _ => forallb is_digit a end.
Definition negative_number (a : arg) : bool :=
  match a with
  | 45 :: r =>
      let m s := all_digits s || (match skip_digits s with 46 :: s' => all_digits s' | _ => false end) in
      m r || m (chop_newline r)
  | _ => false
  end.

(** Lib/argparse.py [_parse_optional]; [None]: ambiguous, argparse exits with status 2. *)
Definition parse_optional (a : arg) : option word :=
  match a with
  | [] => Some WArg
  | c :: r =>
      if negb (c =? 45) then Some WArg else
      match find_option a option_strings with
      | Some x => Some (WOption (mkO (Some x) (is_short a) false None))
      | None =>
          match r with
          | [] => Some WArg
          | _ :: _ =>
              let by_eq := match partition_eq a with
                           | (p, Some e) =>
                               match find_option p option_strings with
                               | Some x => Some (mkO (Some x) (is_short p) true (Some e))
                               | None => None
                               end
                           | (_, None) => None
                           end in
              match by_eq with
              | Some t => Some (WOption t)
              | None =>
                  match option_tuples a with
                  | _ :: _ :: _ => None
                  | [t] => Some (WOption t)
                  | [] =>
                      if negative_number a then Some WArg
                      else if contains [32] a then Some WArg
                      else Some (WOption (mkO None (is_short a) false None))
                  end
              end
          end
      end
  end.

(** The classification loop at the start of [_parse_known_args]; after "--" every string is a
    plain argument. *)
Fixpoint classify (args : list arg) : option (list (arg * word)) :=
  match args with
  | [] => Some []
  | a :: r =>
      if arg_eqb a (text "--") then Some ((a, WDashes) :: map (fun x => (x, WArg)) r)
      else match parse_optional a with
           | None => None
           | Some w => match classify r with Some l => Some ((a, w) :: l) | None => None end
           end
  end.

(** The namespace under construction, whether the positional has been consumed, and the
    unrecognised strings. *)
Record ns := mkNs {
  ns_files : option (list arg); ns_parseables : option (list arg);
  ns_pretty : bool; ns_tstats : bool; ns_cstats : bool; ns_extras : list arg }.
Definition ns0 : ns := mkNs None None false false false [].

Definition add_extras (x : list arg) (n : ns) : ns :=
  mkNs (ns_files n) (ns_parseables n) (ns_pretty n) (ns_tstats n) (ns_cstats n) (ns_extras n ++ x).

(** [SystemExit(code)]: 0 after -h, 2 after an error. *)
Inductive stepres (A : Type) := Go (a : A) | Exit (code : Z).
Arguments Go {A} a.
Arguments Exit {A} code.

(** [take_action] for an option, with the conversions and the choices check of [_get_values]. *)
Definition take (x : act) (vs : list arg) (n : ns) : stepres ns :=
  match x with
  | AHelp => Exit 0
  | AParseables =>
      if forallb (fun v => existsb (fun p => arg_eqb v (text p)) PARSEABLES) vs
      then Go (mkNs (ns_files n) (Some vs) (ns_pretty n) (ns_tstats n) (ns_cstats n) (ns_extras n))
      else Exit 2
  | APretty => Go (mkNs (ns_files n) (ns_parseables n) true (ns_tstats n) (ns_cstats n) (ns_extras n))
  | ATstats => Go (mkNs (ns_files n) (ns_parseables n) (ns_pretty n) true (ns_cstats n) (ns_extras n))
  | ACstats => Go (mkNs (ns_files n) (ns_parseables n) (ns_pretty n) (ns_tstats n) true (ns_extras n))
  end.

Fixpoint take_all (l : list (act * list arg)) (n : ns) : stepres ns :=
  match l with
  | [] => Go n
  | (x, vs) :: r => match take x vs n with Go n' => take_all r n' | Exit c => Exit c end
  end.

(** The inner loop of [consume_optional] while there is an explicit argument [e].  The result:
    the actions so far, then either a last action that takes its arguments from the following
    strings, or an unrecognised rest, or neither.  [None]: an ArgumentError. *)
Inductive tailk := TNext (x : act) | TExtra (a : arg) | TEnd.

Fixpoint cluster (x : act) (short eq : bool) (e : arg) {struct e} : option (list (act * list arg) * tailk) :=
  match x with
  | AParseables => Some ([(x, [e])], TEnd)
  | _ =>
      match short, e with
      | true, c :: r =>
          if eq || (c =? 45) then None else
          match find_option [45; c] option_strings with
          | None => Some ([(x, [])], TExtra (45 :: e))
          | Some y =>
              match r with
              | [] => Some ([(x, [])], TNext y)
              | c' :: r' =>
                  match (if c' =? 61 then cluster y true true r' else cluster y true false r) with
                  | Some (l, t) => Some ((x, []) :: l, t)
                  | None => None
                  end
              end
          end
      | _, _ => None
      end
  end.

(** The plain arguments at the front. *)
Fixpoint leading_args (l : list (arg * word)) : list arg * list (arg * word) :=
  match l with
  | (a, WArg) :: r => let '(vs, rest) := leading_args r in (a :: vs, rest)
  | _ => ([], l)
  end.

(** An option without explicit argument: store_true and -h take none ([()] matches), -P takes the
    longest run of plain arguments ([(A[A]* )]) and fails when there is none. *)
Definition open_args (x : act) (l : list (arg * word)) : option (list arg * list (arg * word)) :=
  match x with
  | AParseables => match leading_args l with ([], _) => None | p => Some p end
  | _ => Some ([], l)
  end.

(** [consume_optional]: the option [a], classified as [t], and what follows it. *)
Definition consume_optional (a : arg) (t : otuple) (l : list (arg * word)) (n : ns)
  : stepres (ns * list (arg * word)) :=
  match o_act t with
  | None => Go (add_extras [a] n, l)
  | Some x =>
      match o_explicit t with
      | None =>
          match open_args x l with
          | None => Exit 2
          | Some (vs, rest) =>
              match take x vs n with Go n' => Go (n', rest) | Exit c => Exit c end
          end
      | Some e =>
          match cluster x (o_short t) (o_eq t) e with
          | None => Exit 2
          | Some (acts, TEnd) =>
              match take_all acts n with Go n' => Go (n', l) | Exit c => Exit c end
          | Some (acts, TExtra u) =>
              match take_all acts n with Go n' => Go (add_extras [u] n', l) | Exit c => Exit c end
          | Some (acts, TNext y) =>
              match open_args y l with
              | None => Exit 2
              | Some (vs, rest) =>
                  match take_all (acts ++ [(y, vs)]) n with Go n' => Go (n', rest) | Exit c => Exit c end
              end
          end
      end
  end.

Definition is_option (w : word) : bool := match w with WOption _ => true | _ => false end.

(** The plain arguments and "--" at the front, up to the next option. *)
Fixpoint before_option (l : list (arg * word)) : list (arg * word) * list (arg * word) :=
  match l with
  | [] => ([], [])
  | (a, w) :: r => if is_option w then ([], l)
                   else let '(p, q) := before_option r in ((a, w) :: p, q)
  end.

(** [arg_strings.remove("--")]: the first occurrence. *)
Fixpoint remove_dashes (l : list arg) : list arg :=
  match l with
  | [] => []
  | a :: r => if arg_eqb a (text "--") then r else a :: remove_dashes r
  end.

(** [consume_positionals]: [files] matches [(-*A[A-]* )], i.e. everything up to the next option
    provided there is a plain argument in it (at the front, possibly after "--").  [None]: no match,
    or [files] was consumed before. *)
Definition consume_positionals (l : list (arg * word)) (n : ns) : option (ns * list (arg * word)) :=
  match ns_files n with
  | Some _ => None
  | None =>
      let '(p, rest) := before_option l in
      if existsb (fun q => match snd q with WArg => true | _ => false end) p then
        Some (mkNs (Some (remove_dashes (map fst p))) (ns_parseables n) (ns_pretty n) (ns_tstats n)
                   (ns_cstats n) (ns_extras n), rest)
      else None
  end.

(** The main loop of [_parse_known_args]; every iteration shortens the list ([fuel]). *)
Fixpoint loop (fuel : nat) (l : list (arg * word)) (n : ns) : stepres ns :=
  match fuel with
  | O => Exit 2
  | S k =>
      if existsb (fun q => is_option (snd q)) l then
        match l with
        | (a, WOption t) :: r =>
            match consume_optional a t r n with
            | Go (n', l') => loop k l' n'
            | Exit c => Exit c
            end
        | _ =>
            match consume_positionals l n with
            | Some (n', l') => loop k l' n'
            | None => let '(p, rest) := before_option l in loop k rest (add_extras (map fst p) n)
            end
        end
      else
        (* after the last option *)
        match consume_positionals l n with
        | Some (n', l') => Go (add_extras (map fst l') n')
        | None => Go (add_extras (map fst l) n)
        end
  end.

(** What reader.py uses of the namespace. *)
Record options := mkOpt {
  op_files : list arg; op_parseables : option (list arg);
  op_pretty : bool; op_tstats : bool; op_cstats : bool }.

(** reader.py:18-58 parse_args on [sys.argv[1:]]: the options, or an exit status. *)
Definition parse_args (argv : list arg) : stepres options :=
  match classify argv with
  | None => Exit 2
  | Some l =>
      match loop (S (List.length l)) l ns0 with
      | Exit c => Exit c
      | Go n =>
          match ns_files n, ns_extras n with
          | Some fs, [] => Go (mkOpt fs (ns_parseables n) (ns_pretty n) (ns_tstats n) (ns_cstats n))
          | _, _ => Exit 2
          end
      end
  end.
End Digits.
Arguments Go {A} a.
Arguments Exit {A} code.

(** ** main *)

(** How the program ended. *)
Inductive outcome := Finished | Exited (code : Z) | Crashed (e : exn).

(** The string object among PARSEABLES that an accepted -P argument equals. *)
Definition name_of (v : arg) : string :=
  match find (fun p => arg_eqb v (text p)) PARSEABLES with Some p => p | None => EmptyString end.

Section Main.
Variable is_digit : Z -> bool.
Variable dec : list byte -> option (list byte).
Variable disk : list Z -> res (list byte).
Variable salvage : list byte -> list byte.
Variable fault : list byte -> exn.
Variable float_repr : Z -> list Z.

(** reader.py:115-126 main, as a command: the files opened and the texts printed, and how it
    ended.  (The help text printed by -h and the usage message of an error are not modelled.) *)
Definition main (argv : list arg) : list event * outcome :=
  match parse_args is_digit argv with
  | Exit c => ([], Exited c)
  | Go o =>
      let ps := match op_parseables o with Some l => map name_of l | None => [] end in
      match main_loop dec disk salvage fault float_repr (op_files o) ps
                      (op_pretty o) (op_tstats o) (op_cstats o) with
      | (es, None) => (es, Finished)
      | (es, Some e) => (es, Crashed e)
      end
  end.
End Main.
