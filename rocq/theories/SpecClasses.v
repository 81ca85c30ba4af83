(** * Specification for C62: what the struct modules must define *)
From Coq Require Import List ZArith Bool String Ascii.
From Coq Require Import Init.Byte.
From Verif Require Import PyBase CTypes S_shared Model Spec SpecFormat SpecFormatTables PySyntax PyClasses PyEval.
Import ListNotations.
Local Open Scope string_scope.
Local Open Scope list_scope.
Local Open Scope Z_scope.

(** The module of a version: "2.11" is in atoparser.structs.atop_2_11. *)
Fixpoint underscores (s : string) : string :=
  match s with
  | EmptyString => EmptyString
  | String c r => String (if Ascii.eqb c "."%char then "_"%char else c) (underscores r)
  end.
Definition module_of (vs : vspec) : string := ("atoparser.structs.atop_" ++ underscores (vs_name vs))%string.

(** The struct type that the Header class [h] gives for a part of a log. *)
Definition attr_type (h : obj) (a : string) : option ctype :=
  match class_lookup h a with Some o => type_of o | None => None end.
Definition header_part (h : obj) (q : part) : option ctype :=
  match q with
  | PHeader => type_of h
  | PRecord => attr_type h "Record"
  | PSStat => attr_type h "SStat"
  | PTStat => attr_type h "TStat"
  | PCStat => attr_type h "CStat"
  end.

(** [denotes o v]: the object [o] of the struct modules is what the interpreter (PyEval.v)
    works with as [v]. *)
Inductive denotes : obj -> value -> Prop :=
| dn_int z : denotes (OInt z) (VInt z)
| dn_str s : denotes (OStr s) (VStr s)
| dn_none : denotes ONone VNone
| dn_type o t : type_of o = Some t -> denotes o (VCType t)
| dn_tuple l vs : Forall2 denotes l vs -> denotes (OTuple l) (VTuple vs)
| dn_list l vs : Forall2 denotes l vs -> denotes (OList l) (VTuple vs)     (* only iterated over *)
| dn_map l d : Forall2 (fun e f => fst e = OStr (fst f) /\ denotes (snd e) (snd f)) l d -> denotes (ODict l) (VMap d)
| dn_chainer b a : denotes (OClass "atop_2_11.CGChainer" b a None) (VClass "CGChainer")
| dn_array : denotes (OItem (OClass "ctypes.Array" [] [] None) (OType sh_pid_t)) (VClass "ctypes.Array[pid_t]")
| dn_header o c :
    type_of o = Some (hc_header c) ->
    class_lookup o "supported_version" = Some (OStr (hc_version c)) ->
    attr_type o "Record" = Some (hc_record c) ->
    attr_type o "SStat" = Some (hc_sstat c) ->
    attr_type o "TStat" = Some (hc_tstat c) ->
    match hc_cstat c with
    | Some t => attr_type o "CStat" = Some t /\ exists b a, class_lookup o "CGChainer" = Some (OClass "atop_2_11.CGChainer" b a None)
    | None => class_lookup o "CStat" = Some ONone /\ class_lookup o "CGChainer" = Some ONone
    end ->
    denotes o (VHClass c).

(** The methods that every header has from HeaderMixin. *)
Definition header_methods : list string :=
  ["check_compatibility"; "major_version"; "minor_version"; "semantic_version"].

(** The names of the classes that a module's text defines. *)
Definition classes_of (m : string) (text : list top) : list string :=
  flat_map (fun s => match s with TopClass x _ _ => [(last_part m "" ++ "." ++ x)%string] | _ => [] end) text.
