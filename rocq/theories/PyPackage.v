(** * Importing the package: modules, their order, type aliases, annotations

    What executing the top-level statements of all modules of atoparser does: the import system
    (sys.modules, parent packages, submodules), assignments, class statements (as in
    PyClasses.v), [typing.Union], function definitions with their default values, decorators and
    annotations, and the [if __name__ == "__main__"] guard.  SourcePackage.v holds the text.

    Simplifications: objects have no identity (a module is executed once, and no object is
    changed after it was made); a library module has the attributes listed below; exceptions are
    not distinguished (the result is [None]). *)
From Coq Require Import List ZArith Lia Bool String Ascii.
From Verif Require Import PyBase CTypes PySyntax PyClasses.
Import ListNotations.
Local Open Scope string_scope.
Local Open Scope list_scope.
Local Open Scope Z_scope.

(** ** Syntax *)

(** A function definition: what is evaluated when the [def] statement is executed. *)
Record pdef := mkDef { d_name : string; d_decorators : list expr; d_defaults : list expr; d_annotations : list expr }.

(** Items of a class body; [PIAnn a] is an annotated name without a value. *)
Inductive pitem := PIAssign (x : string) (e : expr) | PIAnn (a : expr) | PIDef (d : pdef).

Inductive ptop :=
| PImport (m : string)                              (* import m *)
| PFrom (m a x : string)                            (* from m import a as x *)
| PAssign (x : string) (e : expr)
| PAnn (x : string) (a e : expr)                    (* x: a = e *)
| PDef (d : pdef)
| PClass (x : string) (bases : list expr) (body : list pitem)
| PIf (c : expr) (body : list stmt).

(** ** Libraries and built-in names *)

Definition opaque (name : string) : obj := OClass name [] [] None.
Definition union_class : obj := opaque "typing.Union".
Definition none_class : obj := opaque "builtins.NoneType".

Definition libraries : list (string * namespace) :=
  [("ctypes", ctypes_names); ("io", [("BytesIO", opaque "io.BytesIO")]); ("zlib", []);
   ("typing", [("Union", union_class)]); ("__future__", [("annotations", opaque "__future__.annotations")]);
   ("argparse", [("Namespace", opaque "argparse.Namespace")]); ("gzip", []); ("json", [])].

Definition builtin_types : list string := ["str"; "int"; "bool"; "list"; "dict"; "tuple"; "type"; "property"].
Definition builtin_obj (x : string) : option obj :=
  if existsb (String.eqb x) builtin_types then Some (opaque ("builtins." ++ x))
  else if String.eqb x "getattr" then Some (OFun "builtins" "getattr")
  else None.

(** ** Types *)

Definition same_class (a b : obj) : bool :=
  match a, b with OClass n _ _ _, OClass k _ _ _ => String.eqb n k | _, _ => false end.

(** What Union[...] accepts as an argument: classes, parametrised types, None (which stands for
    its class) and unions, whose members are taken. *)
Definition union_members (o : obj) : option (list obj) :=
  match o with
  | ONone => Some [none_class]
  | OItem u (OTuple l) => if same_class u union_class then Some l else Some [o]
  | OItem _ _ | OClass _ _ _ _ | OType _ => Some [o]
  | _ => None
  end.
Fixpoint all_members (l : list obj) : option (list obj) :=
  match l with
  | [] => Some []
  | o :: r => match union_members o, all_members r with Some a, Some b => Some (a ++ b) | _, _ => None end
  end.

(** Repeated members are dropped, the first occurrence stays; a single member is itself the type. *)
Fixpoint drop_repeats (seen l : list obj) : list obj :=
  match l with
  | [] => []
  | o :: r => if existsb (same_class o) seen then drop_repeats seen r else o :: drop_repeats (seen ++ [o]) r
  end.
Definition make_union (l : list obj) : option obj :=
  match all_members l with
  | Some ms =>
      match drop_repeats [] ms with
      | [] => None
      | [o] => Some o
      | us => Some (OItem union_class (OTuple us))
      end
  | None => None
  end.

(** issubclass(c, t) for classes. *)
Fixpoint subclass (c t : obj) : bool :=
  match c with
  | OClass _ bases _ _ =>
      same_class c t || (fix go (l : list obj) := match l with [] => false | b :: r => subclass b t || go r end) bases
  | _ => false
  end.

(** isinstance(x, t) for an object [x] whose class is [c]: [t] is a class or a union. *)
Definition instance_of (c t : obj) : bool :=
  match t with
  | OClass _ _ _ _ => subclass c t
  | OItem u (OTuple l) => same_class u union_class && existsb (subclass c) l
  | _ => false
  end.

(** ** Expressions *)

Definition subscriptable : list string :=
  ["builtins.list"; "builtins.dict"; "builtins.tuple"; "builtins.type"; "ctypes.Array"].

(** Python's index into a list: negative ones count from the end. *)
Definition nth_obj (l : list obj) (i : Z) : option obj :=
  let j := if i <? 0 then i + zlen l else i in
  if j <? 0 then None else nth_error l (Z.to_nat j).

Definition subscript (v i : obj) : option obj :=
  match v, i with
  | OClass n _ _ _, _ =>
      if String.eqb n "typing.Union" then make_union (match i with OTuple l => l | _ => [i] end)
      else if existsb (String.eqb n) subscriptable then Some (OItem v i) else None
  | OList l, OInt z => nth_obj l z
  | _, _ => None
  end.

Definition items (o : obj) : option (list obj) :=
  match o with OList l | OTuple l => Some l | _ => None end.

(** d[k] = v for the dictionary that a comprehension builds; keys are strings. *)
Fixpoint odict_set (d : list (obj * obj)) (k : string) (v : obj) : list (obj * obj) :=
  match d with
  | [] => [(OStr k, v)]
  | (OStr x, w) :: r => if String.eqb x k then (OStr x, v) :: r else (OStr x, w) :: odict_set r k v
  | e :: r => e :: odict_set r k v
  end.

Definition local (x : string) (v : obj) (scope : string -> option obj) : string -> option obj :=
  fun y => if String.eqb y x then Some v else scope y.

Definition all_some {A} (l : list (option A)) : option (list A) :=
  fold_right (fun x r => match x, r with Some a, Some b => Some (a :: b) | _, _ => None end) (Some []) l.

Section Eval.
(** Attributes of objects (modules included). *)
Context (attr : obj -> string -> option obj).

Fixpoint peval (scope : string -> option obj) (e : expr) : option obj :=
  match e with
  | EName x => scope x
  | EInt z => Some (OInt z)
  | EStr s => Some (OStr s)
  | ENone => Some ONone
  | EBool b => Some (OInt (if b then 1 else 0))
  | EAttr e a => match peval scope e with Some o => attr o a | None => None end
  | ENeg e => match peval scope e with Some (OInt z) => Some (OInt (- z)) | _ => None end
  | EBin OpBitOr a b =>
      match peval scope a, peval scope b with Some x, Some y => make_union [x; y] | _, _ => None end
  | EBin op a b =>
      match peval scope a, peval scope b with Some x, Some y => obj_bin op x y | _, _ => None end
  | ECmp OpEq a b =>
      match peval scope a, peval scope b with
      | Some (OStr x), Some (OStr y) => Some (OInt (if String.eqb x y then 1 else 0))
      | _, _ => None
      end
  | EList l => match all_some (map (peval scope) l) with Some vs => Some (OList vs) | None => None end
  | ETuple l => match all_some (map (peval scope) l) with Some vs => Some (OTuple vs) | None => None end
  | EDict l =>
      match all_some (map (fun e => match peval scope (fst e), peval scope (snd e) with
                                    | Some k, Some v => Some (k, v)
                                    | _, _ => None
                                    end) l) with Some vs => Some (ODict vs) | None => None end
  | ESub e i => match peval scope e, peval scope i with Some v, Some w => subscript v w | _, _ => None end
  | ESlice e (Some i) None =>
      match peval scope e, peval scope i with
      | Some (OList l), Some (OInt z) => Some (OList (pyslice z (zlen l) l))
      | _, _ => None
      end
  | EDictComp k v x it =>
      match peval scope it with
      | Some o =>
          match items o with
          | Some l =>
              match fold_left (fun d o => match d, peval (local x o scope) k, peval (local x o scope) v with
                                          | Some d, Some (OStr s), Some w => Some (odict_set d s w)
                                          | _, _, _ => None
                                          end) l (Some []) with Some d => Some (ODict d) | None => None end
          | None => None
          end
      | None => None
      end
  | EFStr l =>
      match all_some (map (fun e => match peval scope e with Some (OStr s) => Some s | _ => None end) l) with
      | Some ss => Some (OStr (String.concat "" ss))
      | None => None
      end
  | ECall (EName "tuple") [EGenExp elt x it] [] =>
      match scope "tuple", peval scope it with
      | Some (OClass "builtins.tuple" _ _ _), Some o =>
          match items o with
          | Some l => match all_some (map (fun o => peval (local x o scope) elt) l) with
                      | Some vs => Some (OTuple vs)
                      | None => None
                      end
          | None => None
          end
      | _, _ => None
      end
  | ECall (EName "getattr") [a; b] [] =>
      match scope "getattr", peval scope a, peval scope b with
      | Some (OFun "builtins" "getattr"), Some o, Some (OStr s) => attr o s
      | _, _, _ => None
      end
  | ECall (EAttr e "values") [] [] =>
      match peval scope e with Some (ODict d) => Some (OList (map snd d)) | _ => None end
  | _ => None
  end.

(** ** Definitions *)

(** A [def]: decorators, default values and, unless postponed, annotations must have values. *)
Definition def_ok (later : bool) (scope : string -> option obj) (d : pdef) : bool :=
  forallb (fun e => match peval scope e with Some _ => true | None => false end)
    (d_decorators d ++ d_defaults d ++ (if later then [] else d_annotations d)).

Definition in_class (attrs : namespace) (globals : string -> option obj) (y : string) : option obj :=
  match assoc y attrs with Some v => Some v | None => globals y end.

Fixpoint pclass_body (later : bool) (m cls : string) (globals : string -> option obj) (body : list pitem)
         (attrs : namespace) : option namespace :=
  match body with
  | [] => Some attrs
  | PIAssign x e :: r =>
      match peval (in_class attrs globals) e with
      | Some v => pclass_body later m cls globals r (dict_set attrs x v)
      | None => None
      end
  | PIAnn a :: r =>
      match (if later then Some ONone else peval (in_class attrs globals) a) with
      | Some _ => pclass_body later m cls globals r attrs
      | None => None
      end
  | PIDef d :: r =>
      if def_ok later (in_class attrs globals) d
      then pclass_body later m cls globals r (dict_set attrs (d_name d) (OFun m (cls ++ "." ++ d_name d)))
      else None
  end.
End Eval.

(** ** Modules *)

(** sys.modules (the modules of the package whose execution has begun, with their namespaces)
    and the functions called by top-level statements. *)
Record pstate := mkP { p_mods : namespaces; p_calls : list (string * string) }.
Definition fresh : pstate := mkP [] [].

Definition pattr (st : pstate) (o : obj) (a : string) : option obj :=
  match o with
  | OModule m =>
      match assoc m libraries with
      | Some n => assoc a n
      | None => match assoc m (p_mods st) with Some n => assoc a n | None => None end
      end
  | OClass _ _ _ _ => class_lookup o a
  | _ => None
  end.

Definition pbind_name (m x : string) (v : obj) (st : pstate) : pstate :=
  mkP (bind_global (p_mods st) m x v) (p_calls st).

(** Names in a module: its own, then the built-in ones. *)
Definition pscope (st : pstate) (m x : string) : option obj :=
  match global_of (p_mods st) m x with Some v => Some v | None => builtin_obj x end.

(** The package that a module is in, and its name there: "a.b.c" is "c" in "a.b". *)
Fixpoint split_last (s : string) : option (string * string) :=
  match s with
  | EmptyString => None
  | String c r =>
      match split_last r with
      | Some (p, n) => Some (String c p, n)
      | None => if Ascii.eqb c "."%char then Some (EmptyString, r) else None
      end
  end.

(** [from __future__ import annotations]: annotations of the module are not evaluated. *)
Definition postponed (text : list ptop) : bool :=
  existsb (fun s => match s with PFrom m a _ => String.eqb m "__future__" && String.eqb a "annotations" | _ => false end) text.

(** Calls without arguments, as statements. *)
Fixpoint top_calls (st : pstate) (m : string) (l : list stmt) : option (list (string * string)) :=
  match l with
  | [] => Some []
  | SExpr (ECall (EName f) [] []) :: r =>
      match pscope st m f, top_calls st m r with
      | Some (OFun m' g), Some cs => Some ((m', g) :: cs)
      | _, _ => None
      end
  | _ :: _ => None
  end.

Section Import.
Context (text_of : list (string * list ptop)).

Section Statement.
(** [imp]: executes the module of that name unless this was begun before. *)
Context (imp : string -> pstate -> option pstate).

Definition run_ptop (later : bool) (m : string) (s : ptop) (st : pstate) : option pstate :=
  match s with
  | PImport m' =>
      match imp m' st with Some st' => Some (pbind_name m m' (OModule m') st') | None => None end
  | PFrom m' a x =>
      match imp m' st with
      | Some st' =>
          match pattr st' (OModule m') a with
          | Some v => Some (pbind_name m x v st')
          | None =>
              let sub := (m' ++ "." ++ a)%string in
              match imp sub st' with Some st'' => Some (pbind_name m x (OModule sub) st'') | None => None end
          end
      | None => None
      end
  | PAssign x e =>
      match peval (pattr st) (pscope st m) e with Some v => Some (pbind_name m x v st) | None => None end
  | PAnn x a e =>
      match peval (pattr st) (pscope st m) e with
      | Some v =>
          let st' := pbind_name m x v st in
          match (if later then Some ONone else peval (pattr st') (pscope st' m) a) with
          | Some _ => Some st'
          | None => None
          end
      | None => None
      end
  | PDef d =>
      if def_ok (pattr st) later (pscope st m) d
      then Some (pbind_name m (d_name d) (OFun m (d_name d)) st) else None
  | PClass x bs body =>
      match all_some (map (peval (pattr st) (pscope st m)) bs),
            pclass_body (pattr st) later m x (pscope st m) body [] with
      | Some bases, Some attrs =>
          match make_class (last_part m "" ++ "." ++ x) bases attrs with
          | Some v => Some (pbind_name m x v st)
          | None => None
          end
      | _, _ => None
      end
  | PIf c body =>
      match peval (pattr st) (pscope st m) c with
      | Some (OInt z) =>
          if z =? 0 then Some st else
          match top_calls st m body with
          | Some cs => Some (mkP (p_mods st) (p_calls st ++ cs))
          | None => None
          end
      | _ => None
      end
  end.

Fixpoint run_ptops (later : bool) (m : string) (l : list ptop) (st : pstate) : option pstate :=
  match l with
  | [] => Some st
  | s :: r => match run_ptop later m s st with Some st' => run_ptops later m r st' | None => None end
  end.
End Statement.

(** Importing a module: its parent package first, then its text, then it becomes an attribute of
    its parent.  [fuel] bounds the depth of imports that are under way. *)
Fixpoint import_module (fuel : nat) (m : string) (st : pstate) : option pstate :=
  match fuel with
  | O => None
  | S k =>
      match assoc m libraries, assoc m (p_mods st) with
      | Some _, _ | _, Some _ => Some st
      | None, None =>
          match match split_last m with Some (p, _) => import_module k p st | None => Some st end with
          | None => None
          | Some st1 =>
              match assoc m (p_mods st1) with
              | Some _ => Some st1
              | None =>
                  match assoc m text_of with
                  | None => None
                  | Some text =>
                      match run_ptops (import_module k) (postponed text) m text
                              (pbind_name m "__name__" (OStr m) st1) with
                      | None => None
                      | Some st2 =>
                          Some match split_last m with
                               | Some (p, n) => pbind_name p n (OModule m) st2
                               | None => st2
                               end
                      end
                  end
              end
          end
      end
  end.

(** Importing one module after the other. *)
Fixpoint imports (fuel : nat) (l : list string) (st : pstate) : option pstate :=
  match l with
  | [] => Some st
  | m :: r => match import_module fuel m st with Some st' => imports fuel r st' | None => None end
  end.

(** python -m m: the parent package is imported, then the text of m is executed as the module
    __main__. *)
Definition run_script (fuel : nat) (m : string) (st : pstate) : option pstate :=
  match match split_last m with Some (p, _) => import_module fuel p st | None => Some st end, assoc m text_of with
  | Some st1, Some text =>
      run_ptops (import_module fuel) (postponed text) "__main__" text
        (pbind_name "__main__" "__name__" (OStr "__main__") st1)
  | _, _ => None
  end.
End Import.
