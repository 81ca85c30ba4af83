(** * argparse: the meaning of parse_args (reader.py:18-58)

    [parse_args] builds an argparse.ArgumentParser by calls of add_argument and returns what its
    parse_args() makes of sys.argv[1:].  This file gives a meaning to the text of such a
    function (SourceArgs.v): what add_argument adds to a parser (Lib/argparse.py of CPython 3.11,
    [add_argument], [_get_positional_kwargs], [_get_optional_kwargs]), and what a parser does
    with a command line ([parse_known_args]) for ANY parser with at most one positional, with
    nargs="+", and options that are store_true, store with nargs="+", or help.  Args.v is the same
    for the one parser of reader.py, with its options written down by hand.

    Not modelled: other actions and nargs (the interpreter gives no meaning to them); the texts
    of help and errors, so [help], [metavar] and the program name have no effect here. *)
From Coq Require Import List ZArith Lia Bool String Ascii.
From Verif Require Import PyBase Parsers Reader Args PySyntax Source.
Import ListNotations.
Local Open Scope string_scope.
Local Open Scope list_scope.
Local Open Scope Z_scope.

(** ** Parsers *)

(** [KStore]: store with nargs="+", the values must be among the choices if there are any. *)
Inductive kind := KStore (choices : option (list string)) | KTrue | KHelp.
(** [a_strings]: the option strings, none for a positional. *)
Record action := mkAction { a_strings : list string; a_dest : string; a_kind : kind }.
Definition parser := list action.

(** Values of the attributes of the namespace. *)
Inductive nsval := NNone | NBool (b : bool) | NList (l : list arg).
Definition attributes := list (string * nsval).

(** ** A parser on a command line *)

Section Engine.
Variable is_digit : Z -> bool.
Variable p : parser.

(** [_option_string_actions] *)
Definition strings_of : list (arg * action) :=
  flat_map (fun a => map (fun s => (text s, a)) (a_strings a)) p.

Fixpoint find_string (a : arg) (l : list (arg * action)) : option action :=
  match l with
  | [] => None
  | (o, x) :: r => if arg_eqb a o then Some x else find_string a r
  end.

(** [_has_negative_number_optionals] *)
Definition negative_options : bool := existsb (fun x => negative_number is_digit (fst x)) strings_of.

(** Option tuples: the action, whether the option string has one dash, whether there is a
    separator "=", the explicit argument. *)
Record tuple := mkT { t_act : option action; t_short : bool; t_eq : bool; t_explicit : option arg }.

(** [_get_option_tuples] *)
Definition tuples (a : arg) : list tuple :=
  if is_short a then
    flat_map (fun '(o, x) =>
                if arg_eqb o (firstn 2 a) then [mkT (Some x) (is_short o) false (Some (skipn 2 a))]
                else if starts_with a o then [mkT (Some x) (is_short o) false None]
                else []) strings_of
  else
    let '(q, e) := partition_eq a in
    flat_map (fun '(o, x) =>
                if starts_with q o
                then [mkT (Some x) (is_short o) (match e with Some _ => true | None => false end) e]
                else []) strings_of.

Inductive cls := CArg | CDashes | COption (t : tuple).

(** [_parse_optional]; [None]: ambiguous, an error. *)
Definition parse_word (a : arg) : option cls :=
  match a with
  | [] => Some CArg
  | c :: r =>
      if negb (c =? 45) then Some CArg else
      match find_string a strings_of with
      | Some x => Some (COption (mkT (Some x) (is_short a) false None))
      | None =>
          match r with
          | [] => Some CArg
          | _ :: _ =>
              match (match partition_eq a with
                     | (q, Some e) =>
                         match find_string q strings_of with
                         | Some x => Some (mkT (Some x) (is_short q) true (Some e))
                         | None => None
                         end
                     | (_, None) => None
                     end) with
              | Some t => Some (COption t)
              | None =>
                  match tuples a with
                  | _ :: _ :: _ => None
                  | [t] => Some (COption t)
                  | [] =>
                      if negative_number is_digit a && negb negative_options then Some CArg
                      else if contains [32] a then Some CArg
                      else Some (COption (mkT None (is_short a) false None))
                  end
              end
          end
      end
  end.

(** The classification of the words at the start of [_parse_known_args]. *)
Fixpoint words_of (args : list arg) : option (list (arg * cls)) :=
  match args with
  | [] => Some []
  | a :: r =>
      if arg_eqb a (text "--") then Some ((a, CDashes) :: map (fun x => (x, CArg)) r)
      else match parse_word a with
           | None => None
           | Some w => match words_of r with Some l => Some ((a, w) :: l) | None => None end
           end
  end.

(** The namespace under construction, the positional if it has not been consumed, and the
    unrecognised words. *)
Record state := mkState { s_attrs : attributes; s_pending : option action; s_extras : list arg }.

Definition more_extras (x : list arg) (s : state) : state :=
  mkState (s_attrs s) (s_pending s) (s_extras s ++ x).

(** [take_action]: [_get_values], then the action. *)
Definition act_on (x : action) (vs : list arg) (s : state) : stepres state :=
  match a_kind x with
  | KHelp => Exit 0
  | KTrue => Go (mkState (dict_set (s_attrs s) (a_dest x) (NBool true)) (s_pending s) (s_extras s))
  | KStore ch =>
      if match ch with
         | Some l => forallb (fun v => existsb (fun c => arg_eqb v (text c)) l) vs
         | None => true
         end
      then Go (mkState (dict_set (s_attrs s) (a_dest x) (NList vs)) (s_pending s) (s_extras s))
      else Exit 2
  end.

Fixpoint act_all (l : list (action * list arg)) (s : state) : stepres state :=
  match l with
  | [] => Go s
  | (x, vs) :: r => match act_on x vs s with Go s' => act_all r s' | Exit c => Exit c end
  end.

(** [consume_optional] while there is an explicit argument. *)
Inductive rest := RNext (x : action) | RExtra (a : arg) | REnd.

Fixpoint explicit_args (x : action) (short eq : bool) (e : arg) {struct e}
  : option (list (action * list arg) * rest) :=
  match a_kind x with
  | KStore _ => Some ([(x, [e])], REnd)
  | _ =>
      match short, e with
      | true, c :: r =>
          if eq || (c =? 45) then None else
          match find_string [45; c] strings_of with
          | None => Some ([(x, [])], RExtra (45 :: e))
          | Some y =>
              match r with
              | [] => Some ([(x, [])], RNext y)
              | c' :: r' =>
                  match (if c' =? 61 then explicit_args y true true r' else explicit_args y true false r) with
                  | Some (l, t) => Some ((x, []) :: l, t)
                  | None => None
                  end
              end
          end
      | _, _ => None
      end
  end.

Fixpoint front_args (l : list (arg * cls)) : list arg * list (arg * cls) :=
  match l with
  | (a, CArg) :: r => let '(vs, t) := front_args r in (a :: vs, t)
  | _ => ([], l)
  end.

(** [_match_argument] with the following words. *)
Definition following_args (x : action) (l : list (arg * cls)) : option (list arg * list (arg * cls)) :=
  match a_kind x with
  | KStore _ => match front_args l with ([], _) => None | q => Some q end
  | _ => Some ([], l)
  end.

Definition option_step (a : arg) (t : tuple) (l : list (arg * cls)) (s : state)
  : stepres (state * list (arg * cls)) :=
  match t_act t with
  | None => Go (more_extras [a] s, l)
  | Some x =>
      match t_explicit t with
      | None =>
          match following_args x l with
          | None => Exit 2
          | Some (vs, r) => match act_on x vs s with Go s' => Go (s', r) | Exit c => Exit c end
          end
      | Some e =>
          match explicit_args x (t_short t) (t_eq t) e with
          | None => Exit 2
          | Some (acts, REnd) => match act_all acts s with Go s' => Go (s', l) | Exit c => Exit c end
          | Some (acts, RExtra u) =>
              match act_all acts s with Go s' => Go (more_extras [u] s', l) | Exit c => Exit c end
          | Some (acts, RNext y) =>
              match following_args y l with
              | None => Exit 2
              | Some (vs, r) =>
                  match act_all (acts ++ [(y, vs)]) s with Go s' => Go (s', r) | Exit c => Exit c end
              end
          end
      end
  end.

Definition is_opt (w : cls) : bool := match w with COption _ => true | _ => false end.

Fixpoint up_to_option (l : list (arg * cls)) : list (arg * cls) * list (arg * cls) :=
  match l with
  | [] => ([], [])
  | (a, w) :: r => if is_opt w then ([], l)
                   else let '(q, t) := up_to_option r in ((a, w) :: q, t)
  end.

(** [consume_positionals]; for a positional, the first "--" is removed ([_get_values]).
    [None]: nothing is consumed. *)
Definition positional_step (l : list (arg * cls)) (s : state) : option (stepres (state * list (arg * cls))) :=
  match s_pending s with
  | None => None
  | Some x =>
      let '(q, t) := up_to_option l in
      if existsb (fun w => match snd w with CArg => true | _ => false end) q then
        Some (match act_on x (remove_dashes (map fst q)) (mkState (s_attrs s) None (s_extras s)) with
              | Go s' => Go (s', t)
              | Exit c => Exit c
              end)
      else None
  end.

(** The loop of [_parse_known_args]. *)
Fixpoint steps (fuel : nat) (l : list (arg * cls)) (s : state) : stepres state :=
  match fuel with
  | O => Exit 2
  | S k =>
      if existsb (fun w => is_opt (snd w)) l then
        match l with
        | (a, COption t) :: r =>
            match option_step a t r s with
            | Go (s', l') => steps k l' s'
            | Exit c => Exit c
            end
        | _ =>
            match positional_step l s with
            | Some (Go (s', l')) => steps k l' s'
            | Some (Exit c) => Exit c
            | None => let '(q, t) := up_to_option l in steps k t (more_extras (map fst q) s)
            end
        end
      else
        match positional_step l s with
        | Some (Go (s', l')) => Go (more_extras (map fst l') s')
        | Some (Exit c) => Exit c
        | None => Go (more_extras (map fst l) s)
        end
  end.

(** The defaults, set before parsing: None, or False for store_true; none for help. *)
Definition default_of (a : action) : option nsval :=
  match a_kind a with KStore _ => Some NNone | KTrue => Some (NBool false) | KHelp => None end.
Fixpoint defaults (l : list action) (n : attributes) : attributes :=
  match l with
  | [] => n
  | a :: r => defaults r (match default_of a, assoc (a_dest a) n with Some v, None => n ++ [(a_dest a, v)] | _, _ => n end)
  end.

Definition positional : option action := find (fun a => match a_strings a with [] => true | _ => false end) p.

(** parse_args(): a positional with nargs="+" is required, and nothing may be left over. *)
Definition parse_command (argv : list arg) : stepres attributes :=
  match words_of argv with
  | None => Exit 2
  | Some l =>
      match steps (S (List.length l)) l (mkState (defaults p []) positional []) with
      | Exit c => Exit c
      | Go s => match s_pending s, s_extras s with None, [] => Go (s_attrs s) | _, _ => Exit 2 end
      end
  end.
End Engine.

(** ** add_argument *)

Fixpoint starts (q s : string) : bool :=
  match q, s with
  | EmptyString, _ => true
  | String a q, String b s => Ascii.eqb a b && starts q s
  | _, EmptyString => false
  end.
Fixpoint strip_dashes (s : string) : string :=
  match s with String c r => if Ascii.eqb c "-" then strip_dashes r else s | EmptyString => EmptyString end.
Fixpoint to_underscores (s : string) : string :=
  match s with
  | EmptyString => EmptyString
  | String c r => String (if Ascii.eqb c "-" then "_"%char else c) (to_underscores r)
  end.

(** The attribute name of an option: that of its first long string, else of its first string. *)
Definition derived_dest (l : list string) : option string :=
  match find (starts "--") l, l with
  | Some s, _ => Some (to_underscores (strip_dashes s))
  | None, s :: _ => Some (to_underscores (strip_dashes s))
  | None, [] => None
  end.

(** Values in the body of parse_args. *)
Inductive aval := AStr (s : string) | AStrs (l : list string) | AParser | ANamespace (n : attributes).

Definition is_str (v : option aval) (s : string) : bool :=
  match v with Some (AStr x) => String.eqb x s | _ => false end.
Definition choices_of (v : option aval) : option (option (list string)) :=
  match v with None => Some None | Some (AStrs l) => Some (Some l) | Some _ => None end.
Definition absent (v : option aval) : bool := match v with None => true | _ => false end.

Definition argument_keywords : list string := ["nargs"; "choices"; "metavar"; "help"; "action"; "dest"].

Definition add_argument (names : list string) (kws : list (string * aval)) (q : parser) : option parser :=
  if negb (forallb (fun k => existsb (String.eqb (fst k)) argument_keywords) kws) then None else
  if existsb (fun s => existsb (String.eqb s) (flat_map a_strings q)) names then None else     (* conflict *)
  match names with
  | [] => None
  | s :: more =>
      if negb (starts "-" s) && match more with [] => true | _ => false end then
        (* positional *)
        if is_str (assoc "nargs" kws) "+" && absent (assoc "action" kws) && absent (assoc "dest" kws) &&
           negb (existsb (fun a => match a_strings a with [] => true | _ => false end) q) then
          match choices_of (assoc "choices" kws) with
          | Some ch => Some (q ++ [mkAction [] s (KStore ch)])
          | None => None
          end
        else None
      else if negb (forallb (starts "-") names) then None else
        match (match assoc "dest" kws with
               | None => derived_dest names
               | Some (AStr d) => Some d
               | Some _ => None
               end) with
        | None | Some EmptyString => None
        | Some d =>
            if is_str (assoc "action" kws) "store_true" then
              if absent (assoc "nargs" kws) && absent (assoc "choices" kws) && absent (assoc "metavar" kws)
              then Some (q ++ [mkAction names d KTrue]) else None
            else if absent (assoc "action" kws) && is_str (assoc "nargs" kws) "+" then
              match choices_of (assoc "choices" kws) with
              | Some ch => Some (q ++ [mkAction names d (KStore ch)])
              | None => None
              end
            else None
        end
  end.

(** ArgumentParser(...): add_help is on. *)
Definition new_parser : parser := [mkAction ["-h"; "--help"] "help" KHelp].

(** ** The body of parse_args *)

Fixpoint all_str (l : list expr) : option (list string) :=
  match l with
  | [] => Some []
  | EStr s :: r => match all_str r with Some t => Some (s :: t) | None => None end
  | _ => None
  end.

(** A name: a local variable, or a constant of reader.py that is a list of strings. *)
Definition arg_name (locals : list (string * aval)) (x : string) : option aval :=
  match assoc x locals with
  | Some v => Some v
  | None => match assoc x (md_assigns r_module) with
            | Some (EList l) => match all_str l with Some t => Some (AStrs t) | None => None end
            | _ => None
            end
  end.

Definition arg_value (locals : list (string * aval)) (e : expr) : option aval :=
  match e with EStr s => Some (AStr s) | EName x => arg_name locals x | _ => None end.

Fixpoint arg_values (locals : list (string * aval)) (l : list (string * expr)) : option (list (string * aval)) :=
  match l with
  | [] => Some []
  | (k, e) :: r =>
      match arg_value locals e, arg_values locals r with
      | Some v, Some t => Some ((k, v) :: t)
      | _, _ => None
      end
  end.

(** The parser under construction, at most one. *)
Inductive body_result := BReturn (v : aval) | BExit (code : Z) | BStuck.

(** Is [e] the module argparse? (reader.py:5 import argparse) *)
Definition is_argparse (locals : list (string * aval)) (e : expr) : bool :=
  match e with
  | EName x => match assoc x locals, assoc x (md_imports r_module) with
               | None, Some (m, None) => String.eqb m "argparse"
               | _, _ => false
               end
  | _ => false
  end.

Section Body.
Variable is_digit : Z -> bool.
Variable argv : list arg.

(** An expression: its value and the parser afterwards, an exit, or no meaning. *)
Inductive ares := AOk (v : option aval) (q : option parser) | AExit (code : Z) | AStuck.

Definition arg_expr (locals : list (string * aval)) (q : option parser) (e : expr) : ares :=
  match e with
  | ECall (EAttr o m) args kws =>
      if is_argparse locals o then
        if String.eqb m "ArgumentParser" then
          match q, all_str args, kws with
          | None, Some [_], [] => AOk (Some AParser) (Some new_parser)
          | _, _, _ => AStuck
          end
        else AStuck
      else
        match arg_value locals o, q with
        | Some AParser, Some q' =>
            if String.eqb m "add_argument" then
              match all_str args, arg_values locals kws with
              | Some names, Some kvs =>
                  match add_argument names kvs q' with Some q2 => AOk None (Some q2) | None => AStuck end
              | _, _ => AStuck
              end
            else if String.eqb m "parse_args" then
              match args, kws with
              | [], [] => match parse_command is_digit q' argv with
                          | Go n => AOk (Some (ANamespace n)) q
                          | Exit c => AExit c
                          end
              | _, _ => AStuck
              end
            else AStuck
        | _, _ => AStuck
        end
  | _ => match arg_value locals e with Some v => AOk (Some v) q | None => AStuck end
  end.

Fixpoint arg_body (l : list stmt) (locals : list (string * aval)) (q : option parser) : body_result :=
  match l with
  | [] => BStuck
  | SAssign (TgName x) e :: r =>
      match arg_expr locals q e with
      | AOk (Some v) q' => arg_body r (dict_set locals x v) q'
      | AExit c => BExit c
      | _ => BStuck
      end
  | SExpr e :: r =>
      match arg_expr locals q e with
      | AOk _ q' => arg_body r locals q'
      | AExit c => BExit c
      | AStuck => BStuck
      end
  | SReturn e :: _ =>
      match arg_expr locals q e with
      | AOk (Some v) _ => BReturn v
      | AExit c => BExit c
      | _ => BStuck
      end
  | _ => BStuck
  end.

(** Calling a function without parameters that has such a body. *)
Definition call_arguments (f : fundef) : body_result :=
  match fd_params f, fd_gen f with
  | [], false => arg_body (fd_body f) [] None
  | _, _ => BStuck
  end.
End Body.
