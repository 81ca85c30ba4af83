(** * What it means that the source of reader.py and the model do the same

    Continues SpecSource.v for parse_file and main of reader.py. *)
From Coq Require Import List ZArith Bool String.
From Coq Require Import Init.Byte.
From Verif Require Import PyBase CTypes Model Json Gzip Reader.
From Verif Require Import PySyntax PyEval Source PyProgram SpecSource.
Import ListNotations.
Local Open Scope string_scope.
Local Open Scope list_scope.
Local Open Scope Z_scope.

(** The argument [parseables]: None or a list of strings. *)
Definition formats (w : world) (pv : value) (ps : list string) : Prop :=
  (pv = VNone /\ ps = []) \/ exists id, pv = VList id /\ cell_at w id = Some (CList (map VStr ps)).

(** What one call of parse_file does to the outside: it opens the path and, if nothing is raised,
    prints one text. *)
Definition file_events (path : list Z) (m : res (list Z)) : list event :=
  Opened path :: match m with Ok t => [Printed t] | Raise _ => [] end.

(** What it returns: None, or the exception goes up. *)
Definition file_result (m : res (list Z)) (w' : world) : er value :=
  match m with Ok _ => EOk VNone w' | Raise e => EErr (xof e) w' end.

(** The namespace that parse_args returns: the files and the options. *)
Record namespace (w : world) (attrs : env) (files : list (list Z)) (ps : list string) (pp st sc : bool) : Prop := {
  ns_files : exists id vs, assoc "files" attrs = Some (VList id) /\ cell_at w id = Some (CList vs) /\
               Forall2 (fun v p => cps v = Some p) vs files;
  ns_parseables : exists v, assoc "parseables" attrs = Some v /\ formats w v ps;
  ns_pretty : assoc "pretty_print" attrs = Some (VBool pp);
  ns_tstats : assoc "show_tstats" attrs = Some (VBool st);
  ns_cstats : assoc "show_cstats" attrs = Some (VBool sc) }.

(** How a call ended, against the exception of the model, if any. *)
Definition main_result (e : option exn) (w' : world) : er value :=
  match e with None => EOk VNone w' | Some x => EErr (xof x) w' end.
