(** * Generator objects of the interpreted program

    [next(g)], [g.throw(x)] and [g.close()] on a generator of the source program, in terms of
    the execution trees of PyEval.v. *)
From Coq Require Import List ZArith Bool String.
From Coq Require Import Init.Byte.
From Verif Require Import PyBase PySyntax PyEval.
Import ListNotations.

(** Created but not started (function and locals); suspended at a [yield]; finished. *)
Inductive pgen :=
| PNew (m name : string) (locals : env)
| PSusp (k : option exc -> world -> tree)
| PFin.

(** What a call of next, throw or close gives: a yielded value, StopIteration (for close: it
    returns), an exception. *)
Inductive pres := PYield (v : value) | PStop | PRaise (x : exc).

Definition resume (t : tree) : pres * pgen * world :=
  match t with
  | TYield v w k => (PYield v, PSusp k, w)
  | TDone (OExc x) _ w => (PRaise x, PFin, w)
  | TDone OBreak _ w => (PRaise XStuck, PFin, w)
  | TDone _ _ w => (PStop, PFin, w)
  end.

Definition py_next (F : fns) (g : pgen) (w : world) : pres * pgen * world :=
  match g with
  | PNew m name l => resume (f_gen F m name l w)
  | PSusp k => resume (k None w)
  | PFin => (PStop, PFin, w)
  end.

Definition py_throw (x : exc) (g : pgen) (w : world) : pres * pgen * world :=
  match g with
  | PSusp k => resume (k (Some x) w)
  | PNew _ _ _ | PFin => (PRaise x, PFin, w)
  end.

(** GeneratorExit is thrown in; a generator that yields again gets a RuntimeError (not modelled). *)
Definition py_close (g : pgen) (w : world) : pres * pgen * world :=
  match g with
  | PSusp k =>
      match resume (k (Some XGenExit) w) with
      | (PRaise XGenExit, p, w') => (PStop, p, w')
      | (PYield _, p, w') => (PRaise XStuck, p, w')
      | r => r
      end
  | PNew _ _ _ | PFin => (PStop, PFin, w)
  end.

(** The object behind a value. *)
Definition pgen_of (v : value) : option pgen :=
  match v with VGen m name l => Some (PNew m name l) | _ => None end.
