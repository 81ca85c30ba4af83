(** * What reading a log must give (for C09-C21) *)
From Coq Require Import List ZArith Bool String.
From Coq Require Import Init.Byte.
From Verif Require Import PyBase CTypes S_shared Model Spec.
Import ListNotations.
Open Scope list_scope.
Open Scope Z_scope.

(** [c] is the set of struct classes shipped for version [vs]. *)
Definition class_for (vs : vspec) (c : hclass) : Prop :=
  In vs spec_versions /\ In c versions /\ hc_version c = vs_name vs.

(** The header bytes say that the version is none of the supported ones. *)
Definition unsupported (hb : list byte) : Prop :=
  forall vs, In vs spec_versions -> ~ is_version vs hb.

(** [k] is the object for group [g]: its struct has exactly the bytes written, its pid list is
    exactly the list of pids written. *)
Definition holds_group (ct : ctype) (g : lgroup) (k : chainer) : Prop :=
  cg_cstat k = mkObj ct (lg_cstat g) /\ array_items (cg_proclist k) = map PInt (lg_pids g).

(** [y] holds exactly the contents of the log sample [s], in the classes of [c]. *)
Definition holds_sample (c : hclass) (s : lsample) (y : sample) : Prop :=
  s_record y = mkObj (hc_record c) (ls_record s) /\
  s_sstat y = mkObj (hc_sstat c) (ls_sstat s) /\
  s_tstats y = map (mkObj (hc_tstat c)) (ls_tstats s) /\
  match hc_cstat c with
  | Some ct => Forall2 (holds_group ct) (ls_groups s) (s_cgroups y)
  | None => s_cgroups y = []
  end.

(** Bytes of the file occupied by a sample with record bytes [rb]: the record and its blocks. *)
Definition sample_extent (vs : vspec) (rb : list byte) : Z :=
  vs_rec vs + u32_at rb 16 + u32_at rb 20 +
  match vs_cstat vs with Some _ => u32_at rb 72 + u32_at rb 84 | None => 0 end.

(** An operation of a caller on the iterator, and what it observes. *)
Inductive op := ONext | OClose | OThrow (e : exn).
Inductive seen := SawYield (s : sample) | SawStop | SawRaise (e : exn) | SawClosed.

(** [next], [throw] and [close] on the iterator. *)
Definition do_op (dec : list byte -> option (list byte)) (o : op) (g : gstate) (f : file) : seen * gstate * file :=
  match o with
  | ONext => match gnext dec g f with
             | (Yield s, g', f') => (SawYield s, g', f')
             | (StopIteration, g', f') => (SawStop, g', f')
             | (Raised e, g', f') => (SawRaise e, g', f')
             end
  | OThrow e => match gthrow g e f with
                | (Yield s, g', f') => (SawYield s, g', f')
                | (StopIteration, g', f') => (SawStop, g', f')
                | (Raised e', g', f') => (SawRaise e', g', f')
                end
  | OClose => let (g', f') := gclose g f in (SawClosed, g', f')
  end.

(** A history of operations. *)
Fixpoint hist (dec : list byte -> option (list byte)) (ops : list op) (g : gstate) (f : file) : list seen * gstate * file :=
  match ops with
  | [] => ([], g, f)
  | o :: r => let '(x, g1, f1) := do_op dec o g f in
              let '(xs, g2, f2) := hist dec r g1 f1 in (x :: xs, g2, f2)
  end.

(** What a finished iterator shows. *)
Definition finished_seen (o : op) : seen :=
  match o with ONext => SawStop | OThrow e => SawRaise e | OClose => SawClosed end.

(** [l] is what is left of [m] after reading forward. *)
Definition suffix_of {A} (l m : list A) : Prop := exists pre, m = pre ++ l.

(** File bytes occupied by consecutive samples. *)
Definition total_extent (vs : vspec) (ss : list sample) : Z :=
  fold_right (fun s n => sample_extent vs (o_buf (s_record s)) + n) 0 ss.

(** What holds of every sample yielded from any file of version [vs], corrupt or not. *)
Definition sample_shape (vs : vspec) (c : hclass) (s : sample) : Prop :=
  o_type (s_record s) = hc_record c /\ 0 < u32_at (o_buf (s_record s)) 16 /\
  (vs_cstat vs = None -> s_cgroups s = []) /\
  (vs_cstat vs <> None -> zlen (s_cgroups s) = u16_at (o_buf (s_record s)) 10) /\
  zlen (s_tstats s) = u32_at (o_buf (s_record s)) 28.

(** [o] is a complete instance of class [t]. *)
Definition sized (t : ctype) (o : cobj) : Prop := o_type o = t /\ zlen (o_buf o) = sizeof t.

(** Every struct of a sample is a complete instance of its class; a pid list is an array of
    32-bit integers, as many as its cgroup says. *)
Definition sample_sized (c : hclass) (s : sample) : Prop :=
  sized (hc_record c) (s_record s) /\ sized (hc_sstat c) (s_sstat s) /\
  Forall (sized (hc_tstat c)) (s_tstats s) /\
  Forall (fun k => exists ct, hc_cstat c = Some ct /\ sized ct (cg_cstat k) /\
                   0 <= i32_at (o_buf (cg_cstat k)) 16 /\
                   sized (TArr (TInt true 4) (i32_at (o_buf (cg_cstat k)) 16)) (cg_proclist k)) (s_cgroups s).

(** Lenient mode turns a final zlib.error into a normal end and changes nothing else. *)
Definition lenient_end (e : ending) : ending := match e with Some ZlibError => None | _ => e end.
