(** * Programs that read a log with the functions for its parts (for C67) *)
From Coq Require Import List ZArith Bool String.
From Coq Require Import Init.Byte.
From Verif Require Import PyBase CTypes Model Spec.
From Verif Require Import PySyntax PyEval SpecSource SpecClient.
Import ListNotations.
Local Open Scope string_scope.
Local Open Scope list_scope.
Local Open Scope Z_scope.

(** [x = atoparser.fn(args)] *)
Definition part (x fn : string) (args : list string) : stmt :=
  SAssign (TgName x) (ECall (EAttr (EName "atoparser") fn) (map EName args) []).

(** For versions with cgroups, and for the others:
<<
  for _ in range(ms):
      record = atoparser.get_record(raw_file, header)
      if record.scomplen <= 0:
          break
      sstat = atoparser.get_sstat(raw_file, header, record)
      tstats = atoparser.get_tstat(raw_file, header, record)
      cgroups = atoparser.get_cstat(raw_file, header, record)    # or: cgroups = []
      body
>> *)
Definition cgroups_stmt (with_cgroups : bool) : stmt :=
  if with_cgroups then part "cgroups" "get_cstat" ["raw_file"; "header"; "record"]
  else SAssign (TgName "cgroups") (EList []).
Definition hand_body (with_cgroups : bool) (body : list stmt) : list stmt :=
  part "record" "get_record" ["raw_file"; "header"] ::
  SIf (ECmp OpLe (EAttr (EName "record") "scomplen") (EInt 0)) [SBreak] [] ::
  part "sstat" "get_sstat" ["raw_file"; "header"; "record"] ::
  part "tstats" "get_tstat" ["raw_file"; "header"; "record"] ::
  cgroups_stmt with_cgroups :: body.
Definition by_hand (with_cgroups : bool) (ms : Z) (body : list stmt) : stmt :=
  SFor (TgName "_") (ECall (EName "range") [EInt ms] []) (hand_body with_cgroups body).

(** What [body] leaves alone: the variables the loop uses, and that its own state does not depend
    on the loop's counter. *)
Definition loop_state (hv : value) (inv : list sample -> env -> world -> Prop) : Prop :=
  forall done l w, inv done l w ->
    assoc "atoparser" l = Some (VModule "atoparser") /\ assoc "raw_file" l = Some VFile /\ assoc "header" l = Some hv /\
    forall i, inv done (dict_set l "_" (VInt i)) w.

(** The variables of the loop. *)
Definition hand_vars : list string := ["_"; "record"; "sstat"; "tstats"; "cgroups"].
(** [l'] is [l] but for the variables of the loop. *)
Definition same_env (l l' : env) : Prop := forall x, ~ In x hand_vars -> assoc x l' = assoc x l.

(** README.md's first program, written like this. *)
Definition usage_by_hand (with_cgroups : bool) (rest : list stmt) : stmt :=
  SWith (ECall (EName "open") [EName "file"; EStr "rb"] []) "raw_file"
    [header_stmt; by_hand with_cgroups 86400 (usage_body rest)].

(** Whether the samples of a log have cgroups, in the version its header announces. *)
Definition has_cgroups (hb : list byte) : bool := (2 <=? major_of hb) && (11 <=? minor_of hb).

(** ** What the parts are, in the bytes *)

(** [count] pieces of [size] bytes of [d], at every [len] bytes; they must all be there. *)
Definition slots (size len count : Z) (d : list byte) : option (list (list byte)) :=
  if (count =? 0) || ((size <=? len) && ((count - 1) * len + size <=? zlen d))
  then Some (map (fun k => sub_bytes (Z.of_nat k * len) size d) (seq 0 (Z.to_nat count)))
  else None.
