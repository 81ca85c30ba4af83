(** * Syntax of the Python subset in which atoparser is written

    [Source.v] holds the code of /repo in this syntax, transcribed by tools/gen_source.py from
    Python's own parse tree (nothing is rewritten by hand).  Docstrings, type annotations and
    comments are dropped; everything else of the transcribed functions is kept. *)
From Coq Require Import List ZArith String.
Import ListNotations.

Inductive cmpop := OpEq | OpNe | OpLt | OpLe | OpGt | OpGe | OpIn | OpNotIn | OpIs | OpIsNot.
Inductive binop := OpAdd | OpSub | OpMul | OpDiv | OpRShift | OpLShift | OpBitAnd | OpBitOr.

Inductive expr :=
| EName (x : string)
| EInt (z : Z)
| EStr (s : string)
| ENone
| EBool (b : bool)
| EAttr (e : expr) (a : string)                                 (* e.a *)
| ECall (f : expr) (args : list expr) (kws : list (string * expr))
| ESub (e i : expr)                                             (* e[i] *)
| ESlice (e : expr) (lo hi : option expr)                       (* e[lo:hi] *)
| ECmp (op : cmpop) (a b : expr)
| EAnd (a b : expr)
| EOr (a b : expr)
| ENot (a : expr)
| ENeg (a : expr)
| EBin (op : binop) (a b : expr)
| EIf (c a b : expr)                                            (* a if c else b *)
| EList (l : list expr)
| ETuple (l : list expr)
| EDict (l : list (expr * expr))
| EFStr (l : list expr)                                         (* f"...": literal parts are EStr *)
| EFormat (e : expr) (spec : string)                            (* {e:spec} in an f-string *)
| EListComp (elt : expr) (x : string) (it : expr)               (* [elt for x in it] *)
| EGenExp (elt : expr) (x : string) (it : expr)                 (* (elt for x in it) *)
| EDictComp (k v : expr) (x : string) (it : expr).              (* {k: v for x in it} *)

Inductive target :=
| TgName (x : string)
| TgTuple (xs : list string)
| TgAttr (e : expr) (a : string)
| TgSub (e i : expr).

Inductive stmt :=
| SExpr (e : expr)
| SAssign (t : target) (e : expr)
| SAug (x : string) (op : binop) (e : expr)                     (* x op= e *)
| SIf (c : expr) (th el : list stmt)
| SFor (t : target) (it : expr) (body : list stmt)
| SReturn (e : expr)
| SRaise (e : expr)
| SReraise                                                      (* raise *)
| STry (body : list stmt) (cls : expr) (handler : list stmt)    (* try: body except cls: handler *)
| SBreak
| SPass
| SYield (e : expr)
| SWith (e : expr) (x : string) (body : list stmt).             (* with e as x: body *)

(** A function: parameters with their defaults, and its body.  [fd_gen]: the body contains a
    [yield], so calling the function only makes a generator. *)
Record fundef := mkFun {
  fd_params : list (string * option expr);
  fd_gen : bool;
  fd_body : list stmt }.

(** A module: what its import statements bind (name, module, attribute of that module if any),
    its top-level assignments in order, its functions (methods as "Class.method"). *)
Record pymodule := mkModule {
  md_imports : list (string * (string * option string));
  md_assigns : list (string * expr);
  md_funs : list (string * fundef) }.
