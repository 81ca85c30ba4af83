(** * All methods of the iterator

    [next(it)], [it.send(x)], [it.throw(x)] and [it.close()] for whatever [x], as CPython 3.11's
    Objects/genobject.c (gen_send_ex2, _gen_throw, gen_close) applies them to the generator of
    utils.py:96-130.  Model.v has [next], [throw] of the exceptions of PyBase.v, and [close]. *)
From Coq Require Import List ZArith Bool.
From Coq Require Import Init.Byte.
From Verif Require Import PyBase CTypes Model SpecLog.
Import ListNotations.

(** What can be passed to [throw]: an exception of PyBase.v (IOErr stands for any class that neither
    the generator nor the interpreter treats specially), GeneratorExit, StopIteration, or something
    that is no exception at all. *)
Inductive thrown := Exception (e : exn) | GeneratorExit | StopIter | NotAnException.

(** [MSend]: send with a value other than None. *)
Inductive method := MNext | MSendNone | MSend | MThrow (x : thrown) | MClose.

(** What the caller sees; [SawStop] is StopIteration. *)
Inductive shown := Shows (x : seen) | ShowsGeneratorExit | ShowsRuntimeError | ShowsTypeError.

Definition plain_op (dec : list byte -> option (list byte)) (o : op) (g : gstate) (f : file) : shown * gstate * file :=
  let '(x, g', f') := do_op dec o g f in (Shows x, g', f').

(** utils.py:124 discards the value of the [yield] expression, so [send] acts like [next]; a value
    sent to a generator that has not started is refused.  GeneratorExit is not a zlib.error
    (utils.py:125), so it passes through.  A StopIteration that leaves the frame of a generator
    becomes a RuntimeError (PEP 479); a finished generator has no frame. *)
Definition do_method (dec : list byte -> option (list byte)) (m : method) (g : gstate) (f : file) : shown * gstate * file :=
  match m with
  | MNext | MSendNone => plain_op dec ONext g f
  | MSend => match g with GInit _ _ _ => (ShowsTypeError, g, f) | _ => plain_op dec ONext g f end
  | MThrow (Exception e) => plain_op dec (OThrow e) g f
  | MThrow GeneratorExit => (ShowsGeneratorExit, GDone, f)
  | MThrow StopIter => match g with GDone => (Shows SawStop, GDone, f) | _ => (ShowsRuntimeError, GDone, f) end
  | MThrow NotAnException => (ShowsTypeError, g, f)
  | MClose => plain_op dec OClose g f
  end.

Fixpoint calls (dec : list byte -> option (list byte)) (ms : list method) (g : gstate) (f : file) : list shown * gstate * file :=
  match ms with
  | [] => ([], g, f)
  | m :: r => let '(x, g1, f1) := do_method dec m g f in
              let '(xs, g2, f2) := calls dec r g1 f1 in (x :: xs, g2, f2)
  end.
