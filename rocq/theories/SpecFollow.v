(** * Several iterators over one open log that is being written (for C48) *)
From Coq Require Import List ZArith Bool.
From Coq Require Import Init.Byte.
From Verif Require Import PyBase CTypes S_shared Model Spec SpecLog.
Import ListNotations.
Open Scope list_scope.
Open Scope Z_scope.

(** What a program following a log does: create another iterator on the same open file and
    header, use iterator number [i], or wait until atop has appended complete samples. *)
Inductive wop :=
| WStart (strict : bool) (max_samples : Z)
| WIter (i : nat) (o : op)
| WGrow (new : list lsample).

(** Replace element [i]. *)
Fixpoint put {A} (i : nat) (x : A) (l : list A) : list A :=
  match l, i with
  | [], _ => []
  | _ :: r, O => x :: r
  | y :: r, S j => y :: put j x r
  end.

(** The program: the iterators created so far and the open file.  An event [(i, x)] is what the
    caller saw when it used iterator [i]. *)
Definition wstep (dec : list byte -> option (list byte)) (h : hobj) (o : wop)
           (its : list gstate) (f : file) : list (nat * seen) * list gstate * file :=
  match o with
  | WStart strict ms => ([], its ++ [generate_statistics (Some h) strict ms], f)
  | WGrow new => ([], its, mkFile (f_rem f ++ samples_bytes new) (f_fault f))
  | WIter i o' =>
      match nth_error its i with
      | None => ([], its, f)
      | Some g => let '(x, g', f') := do_op dec o' g f in ([(i, x)], put i g' its, f')
      end
  end.

Fixpoint wrun (dec : list byte -> option (list byte)) (h : hobj) (ops : list wop)
         (its : list gstate) (f : file) : list (nat * seen) * list gstate * file :=
  match ops with
  | [] => ([], its, f)
  | o :: r => let '(ev, its1, f1) := wstep dec h o its f in
              let '(evs, its2, f2) := wrun dec h r its1 f1 in (ev ++ evs, its2, f2)
  end.

(** The samples yielded, in the order of the calls, by all iterators together. *)
Definition yields (evs : list (nat * seen)) : list sample :=
  flat_map (fun e => match snd e with SawYield s => [s] | _ => [] end) evs.

(** The samples written while the program ran. *)
Definition grown (ops : list wop) : list lsample :=
  flat_map (fun o => match o with WGrow new => new | _ => [] end) ops.

(** ** What must be seen: a queue of unread samples shared by the iterators *)

Inductive follower := Fresh (strict : bool) (max_samples : Z) | Live (strict : bool) (todo : Z) | Finished.

(** What the caller must see. *)
Inductive want := WantSample (s : lsample) | WantStop | WantRaise (e : exn) | WantClosed.

Definition deliver (strict : bool) (todo : Z) (queue : list lsample) : want * follower * list lsample :=
  match queue with
  | s :: r => if 0 <? todo then (WantSample s, Live strict (todo - 1), r) else (WantStop, Finished, queue)
  | [] => (WantStop, Finished, [])
  end.

Definition follow (o : op) (a : follower) (queue : list lsample) : want * follower * list lsample :=
  match o, a with
  | ONext, Fresh strict ms => deliver strict ms queue
  | ONext, Live strict todo => deliver strict todo queue
  | ONext, Finished => (WantStop, Finished, queue)
  | OClose, _ => (WantClosed, Finished, queue)
  | OThrow ZlibError, Live false _ => (WantStop, Finished, queue)
  | OThrow e, _ => (WantRaise e, Finished, queue)
  end.

Definition astep (o : wop) (as_ : list follower) (queue : list lsample)
  : list (nat * want) * list follower * list lsample :=
  match o with
  | WStart strict ms => ([], as_ ++ [Fresh strict ms], queue)
  | WGrow new => ([], as_, queue ++ new)
  | WIter i o' =>
      match nth_error as_ i with
      | None => ([], as_, queue)
      | Some a => let '(x, a', q') := follow o' a queue in ([(i, x)], put i a' as_, q')
      end
  end.

Fixpoint arun (ops : list wop) (as_ : list follower) (queue : list lsample)
  : list (nat * want) * list follower * list lsample :=
  match ops with
  | [] => ([], as_, queue)
  | o :: r => let '(ev, as1, q1) := astep o as_ queue in
              let '(evs, as2, q2) := arun r as1 q1 in (ev ++ evs, as2, q2)
  end.

(** The caller saw, from the same iterator, what it must see. *)
Definition matches_want (c : hclass) (w : nat * want) (s : nat * seen) : Prop :=
  fst w = fst s /\
  match snd w, snd s with
  | WantSample l, SawYield y => holds_sample c l y
  | WantStop, SawStop => True
  | WantRaise e, SawRaise e' => e = e'
  | WantClosed, SawClosed => True
  | _, _ => False
  end.

(** Polling: each time some samples have been appended, a [for] loop over a new iterator. *)
Fixpoint poll (dec : list byte -> option (list byte)) (h : hobj) (strict : bool) (max_samples : Z)
         (batches : list (list byte)) (f : file) : list (list sample * option ending) :=
  match batches with
  | [] => []
  | b :: r => let '(ys, e, f') := run dec (Some h) strict max_samples (mkFile (f_rem f ++ b) (f_fault f)) in
              (ys, e) :: poll dec h strict max_samples r f'
  end.
