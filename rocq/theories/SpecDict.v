(** * Specification of the dictionary made from a C value (for C26-C30) *)
From Coq Require Import List ZArith Bool String.
From Coq Require Import Init.Byte.
From Verif Require Import PyBase Utf8 CTypes S_shared Model Spec.
Import ListNotations.
Open Scope list_scope.
Open Scope Z_scope.

(** How many leading elements of a counted array with [cap] slots are listed: [n] of them, at
    most all; a negative count [-k] drops the last [k] (see C28). *)
Definition listed (n cap : Z) : Z :=
  if 0 <=? n then Z.min n cap else Z.max 0 (cap + n).

(** The text contains the word "future". *)
Definition has_future (name : string) : Prop :=
  exists a b, name = String.append a (String.append "future" b).

Definition is_struct (t : ctype) : bool := match t with TStruct _ _ _ => true | _ => false end.

(** A placeholder field: not a nested struct, and named "...future...". *)
Definition placeholder (f : string * ctype) : bool :=
  negb (is_struct (snd f)) && str_contains "future" (fst f).

(** The value of the count field named [lim], if the array field [name] has one. *)
Definition count_for (lims : list (string * string)) (vs : list (string * cval)) (name : string)
  : option Z :=
  match assoc name lims with
  | Some lim => match assoc lim vs with Some (VInt n) => Some n | _ => None end
  | None => None
  end.

Fixpoint dict_of (t : ctype) (v : cval) {struct t} : json :=
  match t, v with
  | TInt _ _, VInt z => JInt z
  | TFloat, VFloat x => JFloat x
  | TChar, VChar c => JStr (decode_ignore [c])
  | TArr TChar _, VStr s => JStr (decode_ignore s)
  | TStruct _ fs lims, VStruct vs =>
      JDict ((fix go (fs : list (string * ctype)) (ws : list (string * cval)) {struct fs}
              : list (string * json) :=
                match fs, ws with
                | (n, ft) :: fs', (_, w) :: ws' =>
                    (if placeholder (n, ft) then []
                     else [(n, match ft, w with
                               | TArr e cap, VArr l =>
                                   JList (map (dict_of e)
                                              (match count_for lims vs n with
                                               | Some k => ztake (listed k cap) l
                                               | None => l
                                               end))
                               | _, _ => dict_of ft w
                               end)])
                    ++ go fs' ws'
                | _, _ => []
                end) fs vs)
  | _, _ => JRaw
  end.

(** The types for which [dict_of] is meaningful: array elements are numbers or structs (or the
    array is a string), and every count field is an integer field of the same struct. *)
Fixpoint dictable (t : ctype) : bool :=
  match t with
  | TInt _ _ | TFloat | TChar => true
  | TArr e _ => match e with TArr _ _ => false | _ => dictable e end
  | TStruct _ fs lims =>
      forallb (fun f => dictable (snd f)) fs &&
      forallb (fun l => match assoc (snd l) fs with Some (TInt _ _) => true | _ => false end) lims
  end.

(** [u] is [t] or the type of something inside a [t]. *)
Inductive part_of : ctype -> ctype -> Prop :=
| part_refl t : part_of t t
| part_elt u e n : part_of u e -> part_of u (TArr e n)
| part_field u name fs lims n ft : In (n, ft) fs -> part_of u ft -> part_of u (TStruct name fs lims).

(** [u] is one of the struct or field types of the classes [c] of a version. *)
Definition type_in (c : hclass) (u : ctype) : Prop :=
  part_of u (hc_header c) \/ part_of u (hc_record c) \/ part_of u (hc_sstat c) \/
  part_of u (hc_tstat c) \/ exists ct, hc_cstat c = Some ct /\ part_of u ct.

(** [j] is the dictionary of a struct of type [t] as far as its keys go, at every level. *)
Fixpoint keyed (t : ctype) (j : json) {struct t} : Prop :=
  match t with
  | TStruct _ fs _ =>
      exists d, j = JDict d /\
      (fix go (fs : list (string * ctype)) (d : list (string * json)) {struct fs} : Prop :=
         match fs with
         | [] => d = []
         | (n, ft) :: fs' =>
             if placeholder (n, ft) then go fs' d
             else match d with
                  | (n', j') :: d' => n' = n /\ keyed ft j' /\ go fs' d'
                  | [] => False
                  end
         end) fs d
  | TArr TChar _ | TChar => exists s, j = JStr s
  | TArr e _ => exists l, j = JList l /\ Forall (keyed e) l
  | TInt _ _ => exists z, j = JInt z
  | TFloat => exists x, j = JFloat x
  end.

(** A tree that json.dumps accepts: text is Unicode, floats are 32-bit patterns, no raw objects. *)
Fixpoint serialisable (j : json) : Prop :=
  match j with
  | JInt _ => True
  | JFloat x => 0 <= x < 4294967296
  | JStr s => Forall scalar s
  | JList l => fold_right and True (map serialisable l)
  | JDict d => fold_right and True (map (fun p => serialisable (snd p)) d)
  | JRaw => False
  end.

(** Which field counts the used slots of which array (all Atop versions). *)
Definition count_names : list (string * string) :=
  [("cpu", "nrcpu"); ("intf", "nrintf"); ("dsk", "ndsk"); ("mdd", "nmdd"); ("lvm", "nlvm");
   ("nfsmnt", "nrmounts"); ("cont", "nrcontainer"); ("gpu", "nrgpus"); ("ifb", "nrports");
   ("numa", "nrnuma"); ("perllc", "nrllcs")]%string.
