(** * Specification for C64 and C65: the modules of the package, their names, its exported types *)
From Coq Require Import List ZArith Bool String.
From Coq Require Import Init.Byte.
From Verif Require Import PyBase CTypes Spec PySyntax PyClasses PyPackage PyEval SpecClasses.
Import ListNotations.
Local Open Scope string_scope.
Local Open Scope list_scope.
Local Open Scope Z_scope.

(** The modules: one per version and the rest. *)
Definition module_names : list string :=
  ["atoparser"; "atoparser.utils"; "atoparser.reader"; "atoparser.parsers"; "atoparser.parsers.atop_1_26";
   "atoparser.structs"; "atoparser.structs.shared"] ++ map module_of spec_versions.

(** [x] is the name of a module inside the package [m]. *)
Definition submodule (m x : string) : Prop := In (m ++ "." ++ x)%string module_names.

(** The functions of the public interface. *)
Definition public_functions : list string :=
  ["generate_statistics"; "get_header"; "get_record"; "get_sstat"; "get_tstat"; "get_cstat"; "struct_to_dict"].

(** The exported types, and the class that a Header class gives for each. *)
Definition public_types : list string := ["Header"; "Record"; "SStat"; "TStat"; "CStat"; "CGChainer"].
Definition class_for_name (h : obj) (k : string) : option obj :=
  if String.eqb k "Header" then Some h else class_lookup h k.

(** [version_class st k o]: [o] is the class for [k] of one of the supported versions. *)
Definition version_class (st : pstate) (k : string) (o : obj) : Prop :=
  exists vs h, In vs spec_versions /\ pattr st (OModule (module_of vs)) "Header" = Some h /\
               class_for_name h k = Some o /\ o <> ONone.

(** [o] is a class that can be had from a struct module under some name. *)
Definition struct_class (st : pstate) (o : obj) : Prop :=
  (exists n b a f, o = OClass n b a f) /\
  exists m x, (m = "atoparser.structs.shared" \/ exists vs, In vs spec_versions /\ m = module_of vs) /\
              pattr st (OModule m) x = Some o.

(** An object [v] of the interpreted program (PyEval.v) with heap [heap] that an object of the
    imported package is represented by. *)
Inductive stands (heap : list cell) : obj -> value -> Prop :=
| st_plain o v : denotes o v -> stands heap o v
| st_fun m f : stands heap (OFun m f) (VFun m f)
| st_module m : stands heap (OModule m) (VModule m)
| st_list l i vs : nth_error heap i = Some (CList vs) -> Forall2 (stands heap) l vs -> stands heap (OList l) (VList i)
| st_dict d i e : nth_error heap i = Some (CDict e) ->
    Forall2 (fun a b => fst a = OStr (fst b) /\ stands heap (snd a) (snd b)) d e -> stands heap (ODict d) (VDict i).

(** Names of the modules that the interpreted program does without: those of Python's import
    system and the types. *)
Definition not_interpreted (m x : string) : Prop :=
  In x (["__name__"; "Union"; "annotations"] ++ public_types) \/ submodule m x.

(** [has_type st k c]: a struct of the C type [c] (one that the parsing functions return) is
    an instance of a class of one of the versions, and passes isinstance with the type that the
    package exports as [k]. *)
Definition has_type (st : pstate) (k : string) (c : ctype) : Prop :=
  exists t o, pattr st (OModule "atoparser") k = Some t /\ type_of o = Some c /\ version_class st k o /\ instance_of o t = true.
