(** * Programs that use atoparser (for C66, C68)

    The two programs of README.md, and what the body of a caller's loop may rely on. *)
From Coq Require Import List ZArith Bool String.
From Coq Require Import Init.Byte.
From Verif Require Import PyBase CTypes S_shared Model Json Gzip Reader Spec.
From Verif Require Import PySyntax PyEval Source PyProgram SpecSource SpecSource2 SpecUsage.
Import ListNotations.
Local Open Scope string_scope.
Local Open Scope list_scope.
Local Open Scope Z_scope.

(** ** The programs *)

(** README.md:85-90, without the two statements that compute with floats and format them: [rest]
    stands for them.
<<
  with open(file, 'rb') as raw_file:
      header = atoparser.get_header(raw_file)
      for record, sstat, tstats, cgroups in atoparser.generate_statistics(raw_file, header):
          total_cycles = record.interval * sstat.cpu.nrcpu * header.hertz
          rest
>> *)
Definition itime_expr : expr := EAttr (EAttr (EAttr (EName "sstat") "cpu") "all") "itime".
Definition usage_body (rest : list stmt) : list stmt :=
  SAssign (TgName "total_cycles")
    (EBin OpMul (EBin OpMul (EAttr (EName "record") "interval") (EAttr (EAttr (EName "sstat") "cpu") "nrcpu"))
                (EAttr (EName "header") "hertz")) :: rest.
Definition header_stmt : stmt :=
  SAssign (TgName "header") (ECall (EAttr (EName "atoparser") "get_header") [EName "raw_file"] []).
Definition samples_expr : expr :=
  ECall (EAttr (EName "atoparser") "generate_statistics") [EName "raw_file"; EName "header"] [].
Definition readme_usage (rest : list stmt) : stmt :=
  SWith (ECall (EName "open") [EName "file"; EStr "rb"] []) "raw_file"
    [header_stmt; SFor (TgTuple ["record"; "sstat"; "tstats"; "cgroups"]) samples_expr (usage_body rest)].

(** README.md:98-100
<<
  with open(file, 'rb') as raw_file:
      header = atoparser.get_header(raw_file)
      print(json.dumps(atoparser.struct_to_dict(header), indent=2))
>> *)
Definition readme_header : stmt :=
  SWith (ECall (EName "open") [EName "file"; EStr "rb"] []) "raw_file"
    [header_stmt;
     SExpr (ECall (EName "print")
       [ECall (EAttr (EName "json") "dumps")
          [ECall (EAttr (EName "atoparser") "struct_to_dict") [EName "header"] []] [("indent", EInt 2)]] [])].

(** The variables of the script when it starts: its imports and [file]. *)
Definition script_env (fv : value) : env :=
  [("json", VModule "json"); ("atoparser", VModule "atoparser"); ("file", fv)].
(** A module that is none of atoparser's: it has the built-in names and its own variables. *)
Definition foreign (md : string) : Prop := forall x, globals md x = None.

(** ** Loops over the samples *)

(** The structs of a sample are instances of the classes of a version. *)
Definition in_classes (c : hclass) (s : sample) : Prop :=
  o_type (s_record s) = hc_record c /\ o_type (s_sstat s) = hc_sstat c /\
  Forall (fun t => o_type t = hc_tstat c) (s_tstats s) /\
  Forall (fun g => exists ct k, hc_cstat c = Some ct /\ o_type (cg_cstat g) = ct /\ o_type (cg_proclist g) = TArr sh_pid_t k)
         (s_cgroups s).

(** What a turn of the loop must leave alone: the memory of the ctypes objects and the header
    objects, the module-level objects of atoparser, the file. *)
Definition respects (w w' : world) : Prop := keeps w w' /\ loaded w' /\ w_file w' = w_file w.

(** The contract of a loop's body ([run]: how it runs): [inv done l w] holds at the head of the
    loop when the samples [done] have been handled; a turn in which the variables [a], [b], [c],
    [d] are the parts of the next sample (whose lists are new objects) ends normally and
    re-establishes it, or leaves the loop with [left]. *)
Definition body_contract (run : env -> world -> tree) (hdr : option hobj) (a b c d : string)
  (inv : list sample -> env -> world -> Prop) (left : list sample -> outcome -> env -> world -> Prop) : Prop :=
  forall done s l w0 w rv sv tv cv,
    inv done l w0 -> grows w0 w -> w_out w = w_out w0 -> loaded w ->
    is_sample w (VTuple [rv; sv; tv; cv]) s -> new_sample w0 (VTuple [rv; sv; tv; cv]) ->
    (forall h, hdr = Some h -> in_classes (h_class h) s) ->
    exists o l' w', run (dict_set (dict_set (dict_set (dict_set l a rv) b sv) c tv) d cv) w = TDone o l' w' /\
      match o with
      | ONext => inv (done ++ [s]) l' w' /\ respects w w'
      | OBreak => left (done ++ [s]) ONext l' w'
      | _ => left (done ++ [s]) o l' w'
      end.

(** How a loop ends that was not left early. *)
Definition loop_end (e : option exn) : outcome := match e with None => ONext | Some x => OExc (xof x) end.

(** ** The numbers of README.md's first program, in the bytes of the log: offsets that are the same
    in all versions *)
Definition total_of (hb rb sb : list byte) : Z := u32_at rb 24 * i64_at sb 0 * u16_at hb 14.
Definition itime_of (sb : list byte) : Z := i64_at sb 112.

(** What [rest] does, given the two numbers (in the range that the fields have): it prints [line] of them, or raises [zero] if the
    divisor is 0; its own variables are new ones. *)
Definition prints_line (run : env -> world -> tree) (eval : expr -> env -> world -> er value)
  (line : Z -> Z -> list Z) (zero : exc) : Prop :=
  forall l w i t, usage_range i t -> assoc "total_cycles" l = Some (VInt t) -> eval itime_expr l w = EOk (VInt i) w ->
    assoc "print" l = None ->
    exists l', (forall x, In x ["header"; "raw_file"; "atoparser"; "json"; "file"; "print"] -> assoc x l' = assoc x l) /\
      run l w = if t =? 0 then TDone (OExc zero) l' w else TDone ONext l' (emit (Printed (line i t)) w).

(** The lines for the samples up to the first with divisor 0; whether there is such a sample.
    ([rs]: the bytes of the records and system statistics.) *)
Fixpoint usage_lines (line : Z -> Z -> list Z) (hb : list byte) (rs : list (list byte * list byte)) : list event * bool :=
  match rs with
  | [] => ([], false)
  | (rb, sb) :: r =>
      let t := total_of hb rb sb in
      if t =? 0 then ([], true)
      else let (es, z) := usage_lines line hb r in (Printed (line (itime_of sb) t) :: es, z)
  end.
