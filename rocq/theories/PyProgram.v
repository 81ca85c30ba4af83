(** * The program of /repo, loaded

    Importing the modules of Source.v: the interpreter evaluates their top-level assignments.
    [modules] and [heap0] state the result; [load_program] checks it. *)
From Coq Require Import List ZArith Lia Bool String.
From Coq Require Import Init.Byte.
From Verif Require Import PyBase Utf8 CTypes S_shared S_1_26 Model Parsers Json Gzip Reader Messages.
From Verif Require Import S_2_3 S_2_4 S_2_5 S_2_6 S_2_7 S_2_8 S_2_9 S_2_10 S_2_11 S_2_12.
From Verif Require Import PySyntax PyEval Source.
Import ListNotations.
Local Open Scope string_scope.
Local Open Scope list_scope.
Local Open Scope Z_scope.

Definition U := "atoparser.utils".
Definition SH := "atoparser.structs.shared".
Definition PA := "atoparser.parsers.atop_1_26".
Definition RD := "atoparser.reader".

(** The functions of the program. *)
Definition functions (m name : string) : option fundef :=
  match assoc m program with Some md => assoc name (md_funs md) | None => None end.

(** Modules that exist, by name. *)
Definition known_module (m : string) : bool :=
  match assoc m program with
  | Some _ => true
  | None => match assoc m struct_modules with Some _ => true | None => false end
  end.

(** The values assigned at top level so far, by module. *)
Definition modstate := list (string * env).

(** A name in a module: assigned there, a function of it, or imported.  ([parse_args] is built
    in, see PyEval.v.)  [fuel] bounds the chain of imports. *)
Fixpoint global (fuel : nat) (ms : modstate) (m x : string) : option value :=
  match match assoc m ms with Some e => assoc x e | None => None end with
  | Some v => Some v
  | None =>
      if (String.eqb m RD && String.eqb x "parse_args")%bool then Some (VFun m x) else
      match assoc m program with
      | None => None
      | Some md =>
          match assoc x (md_funs md) with
          | Some _ => Some (VFun m x)
          | None =>
              match assoc x (md_imports md) with
              | None => None
              | Some (m', None) => Some (VModule m')
              | Some (m', Some a) =>
                  if known_module (m' ++ "." ++ a) then Some (VModule (m' ++ "." ++ a)) else
                  match library_attr m' a with
                  | Some v => Some v
                  | None => match fuel with O => None | S k => global k ms m' a end
                  end
              end
          end
      end
  end.

(** Running the top-level assignments of a module, then of all modules in import order. *)
Fixpoint load_assigns (m : string) (l : list (string * expr)) (ms : modstate) (w : world)
  : option (modstate * world) :=
  match l with
  | [] => Some (ms, w)
  | (x, e) :: r =>
      let F := mkFns (fun _ _ _ _ w => EErr XStuck w) (fun _ _ l w => tfail XStuck l w) in
      match eval (fun _ => None) (fun _ => Raise TypeError) (fun b => b) (fun _ => TypeError)
                 (fun _ => []) (global 3 ms) F m e [] w with
      | EOk v w' =>
          let old := match assoc m ms with Some e => e | None => [] end in
          load_assigns m r (dict_set ms m (dict_set old x v)) w'
      | EErr _ _ => None
      end
  end.

Fixpoint load_modules (l : list (string * pymodule)) (ms : modstate) (w : world)
  : option (modstate * world) :=
  match l with
  | [] => Some (ms, w)
  | (m, md) :: r =>
      match load_assigns m (md_assigns md) ms w with
      | Some (ms', w') => load_modules r ms' w'
      | None => None
      end
  end.

(** utils.py:47-79, reader.py:12-15, shared.py:17-24 *)
Definition modules : modstate :=
  [("atoparser.structs.shared",
     [("time_t", VCType sh_time_t); ("count_t", VCType sh_count_t); ("off_t", VCType sh_off_t);
      ("pid_t", VCType sh_pid_t)]);
   ("atoparser.utils",
     [("_VERSIONS", VList 0); ("_CSTAT_VERSIONS", VList 1);
      ("_DEFAULT_VERSION", VStr default_version); ("_HEADER_BY_VERSION", VDict 2);
      ("MAX_SAMPLES_PER_FILE", VInt MAX_SAMPLES_PER_FILE); ("MAGIC", VInt MAGIC)]);
   ("atoparser", [("__version__", VStr "3.3.1")]);
   ("atoparser.reader", [("PARSEABLES", VList 3); ("PARSEABLE_MAP", VDict 5)])].

Definition heap0 : list cell :=
  [CList (map (fun c => VModule (fst c)) struct_modules);
   CList [VModule "atoparser.structs.atop_2_11"; VModule "atoparser.structs.atop_2_12"];
   CDict (map (fun e => (fst e, VHClass (snd e))) header_by_version);
   CList (map VStr PARSEABLES);
   CDict (map (fun p => (fst p, VFun PA ("parse_" ++ fst p))) parsers_1_26);
   CDict [("1.26", VDict 4)]].

Lemma load_program : forall f out,
  load_modules program [] (mkW [] f out) = Some (modules, mkW heap0 f out).
Proof. intros. vm_compute. reflexivity. Qed.

Definition globals : string -> string -> option value := global 3 modules.
