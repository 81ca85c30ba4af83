(** * Samples as independent values (for C55)

    The same programs as in Heap.v, but every sample received is a value of its own: changing a
    part of one sample changes nothing else, and the generator reads the file with the header as
    it is now. *)
From Coq Require Import List ZArith Bool String.
From Coq Require Import Init.Byte.
From Verif Require Import PyBase CTypes S_shared Model Heap.
Import ListNotations.
Open Scope list_scope.
Open Scope Z_scope.

(** The bytes [b] with those at [off] and following replaced by [x]. *)
Definition replaced (off : Z) (x b : list byte) : list byte :=
  firstn (Z.to_nat off) b ++ x ++ skipn (Z.to_nat off + List.length x) b.

(** An object with some of its bytes replaced; bytes outside it are not its own. *)
Definition set_obj (off : Z) (x : list byte) (o : cobj) : cobj :=
  if (0 <=? off) && (off + zlen x <=? sizeof (o_type o)) then mkObj (o_type o) (replaced off x (o_buf o)) else o.

Fixpoint set_nth {A} (n : nat) (f : A -> A) (l : list A) : list A :=
  match l, n with
  | [], _ => []
  | a :: r, O => f a :: r
  | a :: r, S k => a :: set_nth k f r
  end.

(** The sample with bytes of one part changed. *)
Definition set_part (p : part) (off : Z) (x : list byte) (s : sample) : sample :=
  match p with
  | PRecord => mkSample (set_obj off x (s_record s)) (s_sstat s) (s_tstats s) (s_cgroups s)
  | PSstat => mkSample (s_record s) (set_obj off x (s_sstat s)) (s_tstats s) (s_cgroups s)
  | PTstat i => mkSample (s_record s) (s_sstat s) (set_nth i (set_obj off x) (s_tstats s)) (s_cgroups s)
  | PCstat i => mkSample (s_record s) (s_sstat s) (s_tstats s)
                  (set_nth i (fun k => mkChain (set_obj off x (cg_cstat k)) (cg_proclist k)) (s_cgroups s))
  | PProclist i => mkSample (s_record s) (s_sstat s) (s_tstats s)
                  (set_nth i (fun k => mkChain (cg_cstat k) (set_obj off x (cg_proclist k))) (s_cgroups s))
  end.

(** The header object, from its seventh byte on (its version numbers stay). *)
Definition set_header (off : Z) (x : list byte) (h : hobj) : hobj :=
  if (6 <=? off) && (off + zlen x <=? sizeof (hc_header (h_class h))) then mkHdr (h_class h) (replaced off x (h_buf h)) else h.

(** The generator, reading with another header. *)
Definition with_header (f : hobj -> hobj) (g : gstate) : gstate :=
  match g with
  | GInit (Some h) strict ms => GInit (Some (f h)) strict ms
  | GYielded h gate strict todo => GYielded (f h) gate strict todo
  | _ => g
  end.

Record vworld := mkVW { v_file : file; v_gen : gstate; v_header : option hobj; v_samples : list sample }.

Section Decompressor.
Variable dec : list byte -> option (list byte).

Definition vstep (o : uop) (v : vworld) : useen * vworld :=
  match o with
  | UNext =>
      match gnext dec (v_gen v) (v_file v) with
      | (Yield s, g, f) => (USaw s, mkVW f g (v_header v) (v_samples v ++ [s]))
      | (StopIteration, g, f) => (UStop, mkVW f g (v_header v) (v_samples v))
      | (Raised e, g, f) => (URaise e, mkVW f g (v_header v) (v_samples v))
      end
  | UThrow e =>
      match gthrow (v_gen v) e (v_file v) with
      | (Yield s, g, f) => (USaw s, mkVW f g (v_header v) (v_samples v))
      | (StopIteration, g, f) => (UStop, mkVW f g (v_header v) (v_samples v))
      | (Raised e, g, f) => (URaise e, mkVW f g (v_header v) (v_samples v))
      end
  | UClose => (UNothing, mkVW (v_file v) (fst (gclose (v_gen v) (v_file v))) (v_header v) (v_samples v))
  | UWrite k p off x => (UNothing, mkVW (v_file v) (v_gen v) (v_header v) (set_nth k (set_part p off x) (v_samples v)))
  | UWriteHeader off x =>
      (UNothing,
       match v_header v with
       | Some h => mkVW (v_file v) (with_header (set_header off x) (v_gen v)) (Some (set_header off x h)) (v_samples v)
       | None => v
       end)
  end.

Fixpoint vprogram (ops : list uop) (v : vworld) : list useen * vworld :=
  match ops with
  | [] => ([], v)
  | o :: r => let (x, v1) := vstep o v in let (xs, v2) := vprogram r v1 in (x :: xs, v2)
  end.

End Decompressor.

Definition vbegin (f : file) (hdr : option hobj) (strict : bool) (ms : Z) : vworld :=
  mkVW f (GInit hdr strict ms) hdr [].

(** ** Words used in the theorems of C55 *)

(** A part of a sample, if it is there. *)
Definition get_part (p : part) (s : sample) : option cobj :=
  match p with
  | PRecord => Some (s_record s)
  | PSstat => Some (s_sstat s)
  | PTstat i => nth_error (s_tstats s) i
  | PCstat i => option_map cg_cstat (nth_error (s_cgroups s) i)
  | PProclist i => option_map cg_proclist (nth_error (s_cgroups s) i)
  end.

(** The samples received so far, as they read now; the header passed, as it reads now. *)
Definition samples_now (w : hworld) : list sample := map (deref_sample (w_heap w)) (w_samples w).
Definition header_now (w : hworld) : option hobj := option_map (deref_header (w_heap w)) (w_header w).

(** The samples in a list of observations, as they read on arrival. *)
Definition arrived (l : list useen) : list sample := flat_map (fun u => match u with USaw s => [s] | _ => [] end) l.

(** Does the step change a sample? *)
Definition writes_sample (o : uop) : bool := match o with UWrite _ _ _ _ => true | _ => false end.
(** The observations of the steps that satisfy [keep]. *)
Definition observations_of (keep : uop -> bool) (ops : list uop) (l : list useen) : list useen :=
  map snd (filter (fun p => keep (fst p)) (combine ops l)).
