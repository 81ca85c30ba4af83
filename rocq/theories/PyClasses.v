(** * Class statements: the meaning of the struct modules

    The modules of atoparser/structs consist of imports, assignments and class statements.  This
    file says what importing them does, in the terms of Python's data model and of ctypes:
    namespaces, class objects with bases and attributes, and the rule by which
    ctypes.Structure turns the class attribute [_fields_] into a memory layout.

    Simplifications: attribute lookup on classes goes through the bases depth first, left to
    right (Python's order when no base occurs twice, as here); objects have no identity (the
    modules never change an object after making it); a module must come after those it imports. *)
From Coq Require Import List ZArith Lia Bool String Ascii.
From Verif Require Import PyBase CTypes PySyntax.
Import ListNotations.
Local Open Scope string_scope.
Local Open Scope list_scope.
Local Open Scope Z_scope.

(** ** Syntax (SourceClasses.v holds the modules in it) *)

Inductive citem := CAssign (x : string) (e : expr) | CDef (x : string).
Inductive top :=
| TopImport (x m : string) (a : option string)      (* import m / from m import a: binds x *)
| TopAssign (x : string) (e : expr)
| TopClass (x : string) (bases : list expr) (body : list citem).

(** ** Objects *)

(** [OType]: a ctypes type that is not a struct, i.e. a simple type or an array type.
    [OClass name bases attrs fields]: a class; [fields]: for a subclass of ctypes.Structure,
    the fields of its instances in order.  [OField]: the descriptor of such a field.
    [OItem a b]: a[b] for a class [a], as in ctypes.Array[pid_t].  [OFun]: a function. *)
Inductive obj :=
| OInt (z : Z)
| OStr (s : string)
| ONone
| OTuple (l : list obj)
| OList (l : list obj)
| ODict (l : list (obj * obj))
| OType (t : ctype)
| OClass (name : string) (bases : list obj) (attrs : list (string * obj)) (fields : option (list (string * ctype)))
| OField (f : string)
| OItem (a b : obj)
| OModule (m : string)
| OFun (m f : string).

Definition namespace := list (string * obj).
Definition namespaces := list (string * namespace).

(** Attribute of a class: its own, else of the first base that has one. *)
Fixpoint class_lookup (o : obj) (a : string) : option obj :=
  match o with
  | OClass _ bases attrs _ =>
      match assoc a attrs with
      | Some v => Some v
      | None => (fix go (l : list obj) := match l with
                                         | [] => None
                                         | b :: r => match class_lookup b a with Some v => Some v | None => go r end
                                         end) bases
      end
  | _ => None
  end.

(** The class attribute [fields_limiters] as a table. *)
Definition limiters (v : option obj) : list (string * string) :=
  match v with
  | Some (ODict l) => flat_map (fun e => match e with (OStr k, OStr x) => [(k, x)] | _ => [] end) l
  | _ => []
  end.

(** The ctypes type that an object is. *)
Definition type_of (o : obj) : option ctype :=
  match o with
  | OType t => Some t
  | OClass n _ _ (Some fs) => Some (TStruct n fs (limiters (class_lookup o "fields_limiters")))
  | _ => None
  end.

(** ctypes: what the module offers to the struct modules (C types of little-endian LP64). *)
Definition structure_class : obj := OClass "ctypes.Structure" [] [] (Some []).
Definition ctypes_names : namespace :=
  [("c_char", OType TChar); ("c_uint8", OType (TInt false 1)); ("c_short", OType (TInt true 2));
   ("c_ushort", OType (TInt false 2)); ("c_int", OType (TInt true 4)); ("c_int32", OType (TInt true 4));
   ("c_uint", OType (TInt false 4)); ("c_long", OType (TInt true 8)); ("c_ulong", OType (TInt false 8));
   ("c_longlong", OType (TInt true 8)); ("c_float", OType TFloat);
   ("Structure", structure_class); ("Array", OClass "ctypes.Array" [] [] None)].

(** ** Expressions *)

Definition mod_attr (ns : namespaces) (m a : string) : option obj :=
  if String.eqb m "ctypes" then assoc a ctypes_names
  else match assoc m ns with Some n => assoc a n | None => None end.

Definition obj_attr (ns : namespaces) (o : obj) (a : string) : option obj :=
  match o with
  | OModule m => mod_attr ns m a
  | OClass _ _ _ _ => class_lookup o a
  | _ => None
  end.

(** [x + y] of integers, [x * y] of integers, [t * n] of a type and a length. *)
Definition obj_bin (op : binop) (x y : obj) : option obj :=
  match op, x, y with
  | OpAdd, OInt a, OInt b => Some (OInt (a + b))
  | OpMul, OInt a, OInt b => Some (OInt (a * b))
  | OpMul, _, OInt n =>
      match type_of x with
      | Some t => if n <? 0 then None else Some (OType (TArr t n))
      | None => None
      end
  | _, _, _ => None
  end.

Fixpoint oeval (ns : namespaces) (scope : string -> option obj) (e : expr) : option obj :=
  match e with
  | EName x => scope x
  | EInt z => Some (OInt z)
  | EStr s => Some (OStr s)
  | ENone => Some ONone
  | EAttr e a => match oeval ns scope e with Some o => obj_attr ns o a | None => None end
  | EBin op a b =>
      match oeval ns scope a, oeval ns scope b with
      | Some x, Some y => obj_bin op x y
      | _, _ => None
      end
  | EList l =>
      match (fix go l := match l with
                         | [] => Some []
                         | x :: r => match oeval ns scope x, go r with Some v, Some vs => Some (v :: vs) | _, _ => None end
                         end) l with Some vs => Some (OList vs) | None => None end
  | ETuple l =>
      match (fix go l := match l with
                         | [] => Some []
                         | x :: r => match oeval ns scope x, go r with Some v, Some vs => Some (v :: vs) | _, _ => None end
                         end) l with Some vs => Some (OTuple vs) | None => None end
  | EDict l =>
      match (fix go l := match l with
                         | [] => Some []
                         | (k, x) :: r =>
                             match oeval ns scope k, oeval ns scope x, go r with
                             | Some kv, Some v, Some vs => Some ((kv, v) :: vs)
                             | _, _, _ => None
                             end
                         end) l with Some vs => Some (ODict vs) | None => None end
  | ESub e i =>
      match oeval ns scope e, oeval ns scope i with
      | Some (OClass n b a f), Some v => Some (OItem (OClass n b a f) v)
      | _, _ => None
      end
  | _ => None
  end.

(** ** Class statements *)

(** The items of [_fields_]: pairs of a name and a type. *)
Fixpoint fields_of (l : list obj) : option (list (string * ctype)) :=
  match l with
  | [] => Some []
  | OTuple [OStr n; v] :: r =>
      match type_of v, fields_of r with Some t, Some fs => Some ((n, t) :: fs) | _, _ => None end
  | _ => None
  end.

(** The fields inherited from the first base that is a struct class. *)
Fixpoint base_fields (bases : list obj) : option (list (string * ctype)) :=
  match bases with
  | [] => None
  | OClass _ _ _ (Some fs) :: _ => Some fs
  | _ :: r => base_fields r
  end.

(** Running the body: names are looked up in the class, then in the module. *)
Fixpoint class_body (ns : namespaces) (m cls : string) (globals : string -> option obj)
         (body : list citem) (attrs : namespace) : option namespace :=
  match body with
  | [] => Some attrs
  | CAssign x e :: r =>
      match oeval ns (fun y => match assoc y attrs with Some v => Some v | None => globals y end) e with
      | Some v => class_body ns m cls globals r (dict_set attrs x v)
      | None => None
      end
  | CDef f :: r => class_body ns m cls globals r (dict_set attrs f (OFun m (cls ++ "." ++ f)))
  end.

(** Making the class.  For a struct class, [_fields_] of the body extends the inherited fields,
    and every new field becomes an attribute, replacing one of the same name.  The attributes by
    which a class changes its layout have no meaning here. *)
Definition layout_attributes : list string := ["_pack_"; "_anonymous_"; "_align_"; "_swappedbytes_"].
Definition make_class (name : string) (bases : list obj) (attrs : namespace) : option obj :=
  match base_fields bases with
  | None => Some (OClass name bases attrs None)
  | Some inherited =>
      if existsb (fun a => match assoc a attrs with Some _ => true | None => false end) layout_attributes then None else
      match assoc "_fields_" attrs with
      | None => Some (OClass name bases attrs (Some inherited))
      | Some (OList l) =>
          match fields_of l with
          | Some fs =>
              Some (OClass name bases (fold_left (fun a f => dict_set a (fst f) (OField (fst f))) fs attrs)
                           (Some (inherited ++ fs)))
          | None => None
          end
      | Some _ => None
      end
  end.

(** ** Modules *)

(** The last part of a dotted name. *)
Fixpoint last_part (s acc : string) : string :=
  match s with
  | EmptyString => acc
  | String c r => if Ascii.eqb c "."%char then last_part r "" else last_part r (acc ++ String c "")
  end.

Definition global_of (ns : namespaces) (m x : string) : option obj :=
  match assoc m ns with Some n => assoc x n | None => None end.

Definition bind_global (ns : namespaces) (m x : string) (v : obj) : namespaces :=
  dict_set ns m (dict_set (match assoc m ns with Some n => n | None => [] end) x v).

(** [from m import a]: a submodule, or a name of the module. *)
Definition import_from (ns : namespaces) (m a : string) : option obj :=
  match assoc (m ++ "." ++ a) ns with
  | Some _ => Some (OModule (m ++ "." ++ a))
  | None => mod_attr ns m a
  end.

Definition run_top (m : string) (s : top) (ns : namespaces) : option namespaces :=
  match s with
  | TopImport x m' None => Some (bind_global ns m x (OModule m'))
  | TopImport x m' (Some a) =>
      match import_from ns m' a with Some v => Some (bind_global ns m x v) | None => None end
  | TopAssign x e =>
      match oeval ns (global_of ns m) e with Some v => Some (bind_global ns m x v) | None => None end
  | TopClass x bs body =>
      match oeval ns (global_of ns m) (EList bs), class_body ns m x (global_of ns m) body [] with
      | Some (OList bases), Some attrs =>
          match make_class (last_part m "" ++ "." ++ x) bases attrs with
          | Some v => Some (bind_global ns m x v)
          | None => None
          end
      | _, _ => None
      end
  end.

Fixpoint run_tops (m : string) (l : list top) (ns : namespaces) : option namespaces :=
  match l with
  | [] => Some ns
  | s :: r => match run_top m s ns with Some ns' => run_tops m r ns' | None => None end
  end.

Fixpoint import_all (l : list (string * list top)) (ns : namespaces) : option namespaces :=
  match l with
  | [] => Some ns
  | (m, text) :: r =>
      match run_tops m text ns with Some ns' => import_all r ns' | None => None end
  end.


