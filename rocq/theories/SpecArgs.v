(** * The command line, as its help text describes it

    Written from the options that reader.py declares; nothing here refers to the model of
    argparse. *)
From Coq Require Import List ZArith String.
From Verif Require Import PyBase Parsers SpecReader.
Import ListNotations.
Local Open Scope string_scope.
Local Open Scope list_scope.
Local Open Scope Z_scope.

(** An argument is a list of code points; [text] gives that of an ASCII literal.  The names that -P
    accepts are [parseable_names]. *)

(** An ordinary word: empty, just "-", or not starting with "-". *)
Definition ordinary (w : list Z) : Prop :=
  match w with [] => True | c :: r => c <> 45 \/ r = [] end.

(** [w] is the short name, or the long name cut to at least [least] characters. *)
Definition spells (w : list Z) (short long : string) (least : nat) : Prop :=
  w = text short \/
  exists n, (least <= n <= String.length long)%nat /\ w = firstn n (text long).

Definition spells_parseables (w : list Z) : Prop := spells w "-P" "--parseables" 4.
Definition spells_pretty (w : list Z) : Prop := spells w "-p" "--pretty-print" 4.
Definition spells_tstats (w : list Z) : Prop :=
  exists n, (3 <= n <= 8)%nat /\ w = firstn n (text "--tstats").
Definition spells_cstats (w : list Z) : Prop :=
  exists n, (3 <= n <= 8)%nat /\ w = firstn n (text "--cstats").

Record settings := mkSet {
  want : option (list string); pretty : bool; tstats : bool; cstats : bool }.
Definition no_settings : settings := mkSet None false false false.

Definition with_want (l : list string) (s : settings) := mkSet (Some l) (pretty s) (tstats s) (cstats s).
Definition with_pretty (s : settings) := mkSet (want s) true (tstats s) (cstats s).
Definition with_tstats (s : settings) := mkSet (want s) (pretty s) true (cstats s).
Definition with_cstats (s : settings) := mkSet (want s) (pretty s) (tstats s) true.

(** One option with its arguments, and its effect.  The flag is true for "-P NAME NAME ...", which
    would swallow ordinary words that follow it. *)
Inductive option_group : bool -> list (list Z) -> settings -> settings -> Prop :=
| og_pretty w s : spells_pretty w -> option_group false [w] s (with_pretty s)
| og_tstats w s : spells_tstats w -> option_group false [w] s (with_tstats s)
| og_cstats w s : spells_cstats w -> option_group false [w] s (with_cstats s)
| og_joined p s : In p parseable_names ->           (* -PNAME *)
    option_group false [text "-P" ++ text p] s (with_want [p] s)
| og_equals w p s : spells_parseables w -> In p parseable_names ->   (* -P=NAME, --parseables=NAME *)
    option_group false [w ++ text "=" ++ text p] s (with_want [p] s)
| og_names w ps s : spells_parseables w -> ps <> [] -> Forall (fun p => In p parseable_names) ps ->
    option_group true (w :: map text ps) s (with_want ps s).

(** Several of them, in order; the flag tells about the last one. *)
Inductive option_groups : bool -> list (list Z) -> settings -> settings -> Prop :=
| ogs_none s : option_groups false [] s s
| ogs_last o ws s s' : option_group o ws s s' -> option_groups o ws s s'
| ogs_more o o' ws ws' s s' s'' : option_group o ws s s' -> option_groups o' ws' s' s'' ->
    ws' <> [] -> option_groups o' (ws ++ ws') s s''.

(** For arbitrary command lines.  A word that can be a file before any "--": an ordinary one, or
    one with a space in it, or one that looks like a negative number ([dg] tells the decimal
    digits). *)
Definition file_word (dg : Z -> bool) (w : list Z) : Prop :=
  ordinary w \/ In 32 w \/
  exists r, w = 45 :: r /\ Forall (fun c => dg c = true \/ c = 46 \/ c = 10) r.

(** [fs] is a nonempty run of words of the command line; the first "--" within or before it is left
    out, and then it extends to the end of the command line and may contain any words. *)
Definition files_of (dg : Z -> bool) (argv fs : list (list Z)) : Prop :=
  fs <> [] /\ exists pre post,
  (argv = pre ++ fs ++ post /\ Forall (file_word dg) fs /\ ~ In (text "--") fs) \/
  exists f1 f2, fs = f1 ++ f2 /\ argv = pre ++ f1 ++ text "--" :: f2 /\ Forall (file_word dg) f1 /\
    ~ In (text "--") f1.

(** A word through which -h can be requested. *)
Definition asks_help (w : list Z) : Prop := exists r, w = 45 :: r /\ In 104 r.
