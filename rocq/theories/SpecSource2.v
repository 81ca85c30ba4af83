(** * What it means that the source's row generators and the model's do the same

    Continues SpecSource.v for the generators parse_* of parsers/atop_1_26.py. *)
From Coq Require Import List ZArith Lia Bool String.
From Coq Require Import Init.Byte.
From Verif Require Import PyBase Utf8 CTypes S_shared S_1_26 Model Parsers Json Gzip Reader Messages.
From Verif Require Import Spec BaseProofs LayoutProofs.
From Verif Require Import PySyntax PyEval Source PyProgram PyGenerator SpecSource.
Import ListNotations.
Local Open Scope string_scope.
Local Open Scope list_scope.
Local Open Scope Z_scope.

(** Between [w] and [w'] anything may have happened to lists, dictionaries and the file, but the
    memory of ctypes objects and the header objects are what they were (a header may have filled
    its version cache). *)
Definition keeps (w w' : world) : Prop :=
  forall n c, cell_at w n = Some c ->
    match c with
    | CMem _ | CHdr _ _ _ => exists c', cell_at w' n = Some c' /\ cell_ok w' c c'
    | _ => (n < List.length (w_heap w'))%nat
    end.

(** The arguments of a parser: header, record, system statistics of any versions, a list of task
    statistics of any versions. *)
Definition parser_args (w : world) (hv rv sv tv : value) (h : hobj) (r s : cobj) (ts : list cobj) : Prop :=
  is_hdr w hv h /\
  is_obj w rv r /\ (exists c, In c versions /\ o_type r = hc_record c) /\
  is_obj w sv s /\ (exists c, In c versions /\ o_type s = hc_sstat c) /\
  is_list is_obj w tv ts /\ Forall (fun t => exists c, In c versions /\ o_type t = hc_tstat c) ts.

(** [p] is a generator that still has to yield [rows] and then end with [e]; through any history of
    next, throw and close, with the rest of the program acting in between ([ok]: what that leaves
    true).  Each row is a new dictionary; nothing else changes. *)
Fixpoint row_history (F : fns) (ok : world -> Prop) (ops : list hop) (w : world) (p : pgen)
         (rows : list row) (e : option exn) : Prop :=
  match ops with
  | [] => True
  | HNext :: ops' =>
      let '(o, p', w') := py_next F p w in
      match rows, e with
      | r :: rs, _ =>
          exists v, o = PYield v /\ only_new w w' /\
            json_val (JDict r) w' (List.length (w_heap w)) (List.length (w_heap w')) v /\
            row_history F ok ops' w' p' rs e
      | [], Some x => o = PRaise (xof x) /\ w' = w /\ row_history F ok ops' w' p' [] None
      | [], None => o = PStop /\ w' = w /\ row_history F ok ops' w' p' [] None
      end
  | HThrow x :: ops' =>
      let '(o, p', w') := py_throw (xof x) p w in
      o = PRaise (xof x) /\ w' = w /\ row_history F ok ops' w' p' [] None
  | HClose :: ops' =>
      let '(o, p', w') := py_close p w in
      o = PStop /\ w' = w /\ row_history F ok ops' w' p' [] None
  | HOther w' :: ops' => keeps w w' -> ok w' -> row_history F ok ops' w' p rows e
  end.

(** The parsers by the names of their functions. *)
Definition parser_functions : list (string * parser) :=
  [("parse_cpu", parse_cpu); ("parse_CPL", parse_CPL); ("parse_CPU", parse_CPU); ("parse_DSK", parse_DSK);
   ("parse_LVM", parse_LVM); ("parse_MDD", parse_MDD); ("parse_MEM", parse_MEM); ("parse_NETL", parse_NETL);
   ("parse_NETU", parse_NETU); ("parse_PAG", parse_PAG); ("parse_PRC", parse_PRC); ("parse_PRD", parse_PRD);
   ("parse_PRG", parse_PRG); ("parse_PRM", parse_PRM); ("parse_PRN", parse_PRN); ("parse_SWP", parse_SWP)].

(** How a loop over such a generator ends. *)
Definition row_end (e : option exn) : pres := match e with None => PStop | Some x => PRaise (xof x) end.
