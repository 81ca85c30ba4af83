(** * What it means that the source and the model do the same

    The relations between what the interpreter does with the source of /repo (PyEval.v,
    Source.v) and what the model says (Model.v).  PropSource.v states the theorems. *)
From Coq Require Import List ZArith Lia Bool String.
From Coq Require Import Init.Byte.
From Verif Require Import PyBase Utf8 CTypes S_shared S_1_26 Model Parsers Json Gzip Reader Messages.
From Verif Require Import Spec BaseProofs LayoutProofs.
From Verif Require Import PySyntax PyEval Source PyProgram PyGenerator.
Import ListNotations.
Local Open Scope string_scope.
Local Open Scope list_scope.
Local Open Scope Z_scope.

(** ** Values

    [is_obj w v o]: in world [w] the Python value [v] is a ctypes instance with the type and the
    bytes of the model's object [o]. *)
Definition is_obj (w : world) (v : value) (o : cobj) : Prop :=
  exists blk off m,
    v = VView (o_type o) blk off /\ mem w blk = Some m /\ 0 <= off /\
    off + sizeof (o_type o) <= zlen m /\ o_buf o = sub_bytes off (sizeof (o_type o)) m /\
    wf_type (o_type o) = true.

Definition is_val (w : world) (v : value) (p : pyval) : Prop :=
  match p with
  | PInt z => v = VInt z
  | PFloat b => v = VFloat b
  | PBytes l => v = VBytes l
  | PObj o => is_obj w v o
  end.

(** What the header caches about itself (shared.py:85-88). *)
Definition cache_attrs (c : hclass) (b : list byte) : env :=
  match getint (h_obj (mkHdr c b)) "aversion" with
  | Ok a => [("_major_version", VInt (major_of_aversion a));
             ("_minor_version", VInt (minor_of_aversion a));
             ("_semantic_version", VStr (version_text (major_of_aversion a) (minor_of_aversion a)))]
  | Raise _ => []
  end.

(** [v] is a header object: its memory, and either no cache yet or the right one. *)
Definition is_hdr (w : world) (v : value) (h : hobj) : Prop :=
  exists id blk attrs,
    v = VHdr id /\ cell_at w id = Some (CHdr (h_class h) blk attrs) /\ mem w blk = Some (h_buf h) /\
    In (h_class h) versions /\ zlen (h_buf h) = 480 /\
    (attrs = [] \/ attrs = cache_attrs (h_class h) (h_buf h)).

(** The allowed change of a cell: a header whose cache was empty has filled it. *)
Definition cell_ok (w' : world) (c c' : cell) : Prop :=
  c' = c \/ exists hc blk m, c = CHdr hc blk [] /\ mem w' blk = Some m /\ c' = CHdr hc blk (cache_attrs hc m).

(** Between [w] and [w'] objects were created and headers may have filled their cache, but
    nothing else that existed in [w] changed. *)
Definition grows (w w' : world) : Prop :=
  forall n c, cell_at w n = Some c -> exists c', cell_at w' n = Some c' /\ cell_ok w' c c'.


(** A Python list whose elements are related to those of [l]. *)
Definition is_list {A} (rel : world -> value -> A -> Prop) (w : world) (v : value) (l : list A) : Prop :=
  exists id vs, v = VList id /\ cell_at w id = Some (CList vs) /\ Forall2 (rel w) vs l.

(** A list that did not exist in [w0]. *)
Definition new_list (w0 : world) (v : value) : Prop := exists id, v = VList id /\ (List.length (w_heap w0) <= id)%nat.

(** A CGChainer instance. *)
Definition is_chain (w : world) (v : value) (c : chainer) : Prop :=
  exists id vc vp, v = VObj id /\ cell_at w id = Some (CObj [("cstat", vc); ("proclist", vp)]) /\
    is_obj w vc (cg_cstat c) /\ is_obj w vp (cg_proclist c).

(** The tuple that generate_statistics yields. *)
Definition is_sample (w : world) (v : value) (s : sample) : Prop :=
  exists vr vs vt vc, v = VTuple [vr; vs; vt; vc] /\
    is_obj w vr (s_record s) /\ is_obj w vs (s_sstat s) /\
    is_list is_obj w vt (s_tstats s) /\ is_list is_chain w vc (s_cgroups s).

(** The two lists in that tuple did not exist in [w0]: samples never share them. *)
Definition new_sample (w0 : world) (v : value) : Prop :=
  match v with VTuple [_; _; vt; vc] => new_list w0 vt /\ new_list w0 vc | _ => False end.

(** ** JSON values

    Two lists related element by element. *)
Definition all2 {A B} (R : A -> B -> Prop) : list A -> list B -> Prop :=
  fix go l m :=
    match l, m with
    | [], [] => True
    | x :: l', y :: m' => R x y /\ go l' m'
    | _, _ => False
    end.

(** [json_val j w lo hi v]: in world [w] the Python value [v] is the JSON value [j], and all the
    lists and dictionaries in it are cells from [lo] up to, not including, [hi].  ([JRaw] is
    something json.dumps rejects: bytes or a ctypes instance.) *)
Fixpoint json_val (j : json) (w : world) (lo hi : nat) (v : value) {struct j} : Prop :=
  match j with
  | JInt z => v = VInt z
  | JFloat b => v = VFloat b
  | JStr s => cps v = Some s
  | JRaw => match v with VBytes _ | VView _ _ _ => True | _ => False end
  | JList l =>
      exists id vs, v = VList id /\ (lo <= id < hi)%nat /\ cell_at w id = Some (CList vs) /\
                    all2 (fun j x => json_val j w lo hi x) l vs
  | JDict d =>
      exists id e, v = VDict id /\ (lo <= id < hi)%nat /\ cell_at w id = Some (CDict e) /\
                   all2 (fun kj kv => fst kj = fst kv /\ json_val (snd kj) w lo hi (snd kv)) d e
  end.

(** ** Exceptions

    The model's exceptions with a text of atoparser's own are [raise ValueError(text)] in the
    source; all others come from built-ins. *)
Definition xof (e : exn) : exc := match message e with Some m => XUser "ValueError" m | None => XB e end.

(** ** Calls *)

(** The module-level objects are in memory. *)
Definition loaded (w : world) : Prop := forall n c, nth_error heap0 n = Some c -> cell_at w n = Some c.

(** The file may raise any exception that is not one of atoparser's own. *)
Definition plain_fault (f : file) : Prop := forall e, f_fault f = Some e -> message e = None.

(** What a call returns, against the model's result: a related value or the same exception, the
    same rest of the file, nothing printed, old objects untouched. *)
Definition runs {A} (rel : world -> value -> A -> Prop) (w : world) (r : er value) (m : res A * file) : Prop :=
  match m with
  | (Ok a, f') => exists v w', r = EOk v w' /\ grows w w' /\ w_file w' = f' /\ w_out w' = w_out w /\ rel w' v a
  | (Raise e, f') => exists w', r = EErr (xof e) w' /\ grows w w' /\ w_file w' = f' /\ w_out w' = w_out w
  end.

(** ** Generators: any history of calls, the rest of the program acting in between *)

Definition out_rel (w0 w : world) (o : pres) (m : gout) : Prop :=
  match m with
  | Yield s => exists v, o = PYield v /\ is_sample w v s /\ new_sample w0 v
  | StopIteration => o = PStop
  | Raised e => o = PRaise (xof e)
  end.

(** One step of a history: [next], [throw], [close], or the rest of the program leading to the
    world [w] (any file position and content, any new objects). *)
Inductive hop := HNext | HThrow (e : exn) | HClose | HOther (w : world).

Fixpoint history (dec : list byte -> option (list byte)) (F : fns) (ops : list hop) (w : world) (p : pgen) (g : gstate) : Prop :=
  match ops with
  | [] => True
  | HOther w' :: r => grows w w' -> plain_fault (w_file w') -> history dec F r w' p g
  | op :: r =>
      let '(o, g', f') := match op with
                          | HNext => gnext dec g (w_file w)
                          | HThrow e => gthrow g e (w_file w)
                          | _ => let (g', f') := gclose g (w_file w) in (StopIteration, g', f')
                          end in
      let '(o', p', w') := match op with
                           | HNext => py_next F p w
                           | HThrow e => py_throw (xof e) p w
                           | _ => py_close p w
                           end in
      out_rel w w' o' o /\ grows w w' /\ w_file w' = f' /\ w_out w' = w_out w /\ history dec F r w' p' g'
  end.


(** A [for] loop over a generator, for at most [fuel] calls of next: the values yielded and how
    the loop ended ([None]: not within [fuel] calls). *)
Fixpoint py_drain (fuel : nat) (F : fns) (p : pgen) (w : world) : list value * option pres * world :=
  match fuel with
  | O => ([], None, w)
  | S k =>
      match py_next F p w with
      | (PYield v, p', w') => let '(vs, e, w'') := py_drain k F p' w' in (v :: vs, e, w'')
      | (o, _, w') => ([], Some o, w')
      end
  end.

(** How a loop ends, against the model's [ending]. *)
Definition ends (e : option pres) (m : option ending) : Prop :=
  match m with
  | None => e = None
  | Some None => e = Some PStop
  | Some (Some x) => e = Some (PRaise (xof x))
  end.

(** The world in which a program that has imported atoparser and opened a file starts. *)
Definition start_world (f : file) : world := mkW heap0 f [].

(** ** Functions that only make new objects

    Every object that existed in [w] is in [w'] what it was; the file and the output too. *)
Definition only_new (w w' : world) : Prop :=
  (List.length (w_heap w) <= List.length (w_heap w'))%nat /\
  (forall n, (n < List.length (w_heap w))%nat -> cell_at w' n = cell_at w n) /\
  w_file w' = w_file w /\ w_out w' = w_out w.

(** The call returns the JSON value that the model gives; all its lists and dictionaries are
    new objects. *)
Definition makes_json (w : world) (r : er value) (m : res json) : Prop :=
  exists j v w', m = Ok j /\ r = EOk v w' /\ only_new w w' /\
    json_val j w' (List.length (w_heap w)) (List.length (w_heap w')) v.
