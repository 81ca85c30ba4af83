(** * The version cache of header objects (structs/shared.py:41-89)

    Model.v gives the values of [major_version], [minor_version] and [semantic_version] as
    functions of the header bytes.  Here the properties are modelled as they are written: the
    first read of any of them stores the three values as instance attributes, later reads return
    the stored ones.  A header instance is its class, its memory (which the owner may rewrite,
    e.g. [header.aversion = x] or another [readinto]) and those attributes. *)
From Coq Require Import List ZArith Lia Bool String.
From Coq Require Import Init.Byte.
From Coq Require Import ZifyBool.
From Verif Require Import PyBase CTypes S_shared Model.
Import ListNotations.
Open Scope list_scope.
Open Scope Z_scope.

(** The attributes [_major_version], [_minor_version], [_semantic_version] (shared.py:85-88);
    they are always set together. *)
Record cache := mkCache { k_major : Z; k_minor : Z; k_text : string }.

Record hinst := mkInst { i_hdr : hobj; i_cache : option cache }.

(** A new instance ([Header()], [Header.from_buffer(...)]: no [__init__], no attributes). *)
Definition fresh (h : hobj) : hinst := mkInst h None.

(** shared.py:83 [not getattr(self, "_semantic_version", None)]: true when the attribute is
    missing or the empty string. *)
Definition cached (i : hinst) : option cache :=
  match i_cache i with
  | Some k => if String.eqb (k_text k) EmptyString then None else Some k
  | None => None
  end.

(** Sequencing of reads of one instance. *)
Definition HM (A : Type) := hinst -> res A * hinst.
Definition hret {A} (a : A) : HM A := fun i => (Ok a, i).
Definition hbind {A B} (m : HM A) (k : A -> HM B) : HM B :=
  fun i => match m i with (Ok a, i') => k a i' | (Raise e, i') => (Raise e, i') end.
Definition hfield (name : string) : HM Z := fun i => (getint (h_obj (i_hdr i)) name, i).

(** shared.py:76-89 semantic_version *)
Definition semantic_version_c : HM string := fun i =>
  match cached i with
  | Some k => (Ok (k_text k), i)
  | None =>
      match getint (h_obj (i_hdr i)) "aversion" with
      | Ok a =>
          let k := mkCache (major_of_aversion a) (minor_of_aversion a)
                           (version_text (major_of_aversion a) (minor_of_aversion a)) in
          (Ok (k_text k), mkInst (i_hdr i) (Some k))
      | Raise e => (Raise e, i)
      end
  end.

(** shared.py:64-68 major_version: reads semantic_version, then the attribute. *)
Definition major_version_c : HM Z :=
  hbind semantic_version_c (fun _ i =>
    match i_cache i with
    | Some k => (Ok (k_major k), i)
    | None => (Raise (AttributeError "_major_version"), i)
    end).

(** shared.py:70-74 minor_version *)
Definition minor_version_c : HM Z :=
  hbind semantic_version_c (fun _ i =>
    match i_cache i with
    | Some k => (Ok (k_minor k), i)
    | None => (Raise (AttributeError "_minor_version"), i)
    end).

(** [self.major_version >= 2 and self.minor_version >= n] *)
Definition version_at_least_2_c (n : Z) : HM bool :=
  hbind major_version_c (fun ma =>
    if 2 <=? ma then hbind minor_version_c (fun mi => hret (n <=? mi)) else hret false).

(** shared.py:41-61 check_compatibility *)
Definition check_compatibility_c : HM unit := fun i0 =>
  (hbind (hfield "rawheadlen") (fun rawheadlen =>
   hbind (hfield "rawreclen") (fun rawreclen =>
   hbind (hfield "sstatlen") (fun sstatlen =>
   let c := h_class (i_hdr i0) in
   let sizes := [("Header"%string, rawheadlen, sizeof (hc_header c));
                 ("Record"%string, rawreclen, sizeof (hc_record c));
                 ("SStat"%string, sstatlen, sizeof (hc_sstat c))] in
   hbind (version_at_least_2_c 3) (fun v23 =>
   hbind (if v23 : bool
          then hbind (hfield "tstatlen") (fun x => hret (sizes ++ [("TStat"%string, x, sizeof (hc_tstat c))]))
          else hbind (hfield "pstatlen") (fun x => hret (sizes ++ [("PStat"%string, x, sizeof (hc_tstat c))])))
   (fun sizes =>
   hbind (version_at_least_2_c 11) (fun v211 =>
   hbind (if v211 : bool
          then hbind (hfield "cstatlen") (fun x => fun i =>
                 match hc_cstat c with
                 | Some ct => (Ok (sizes ++ [("CStat"%string, x, sizeof ct)]), i)
                 | None => (Raise TypeError, i)
                 end)
          else hret sizes)
   (fun sizes i =>
      (if existsb (fun s => negb (snd (fst s) =? snd s)) sizes
       then Raise (ValueError (Incompatible sizes)) else Ok tt, i))))))))) i0.

(** utils.py:150-163 with header objects: the default-class instance is read once for its
    version; a different class gets a new instance over the same memory. *)
Definition get_header_of_bytes_c (buf : list byte) (check : bool) : res hinst :=
  let i0 := fresh (mkHdr default_class buf) in
  let? magic := getint (h_obj (i_hdr i0)) "magic" in
  if negb (magic =? MAGIC) then Raise (ValueError (BadMagic magic)) else
  match semantic_version_c i0 with
  | (Raise e, _) => Raise e
  | (Ok v, i1) =>
      let? i :=
        if negb (String.eqb v default_version) then
          match assoc v header_by_version with
          | Some c =>
              if zlen buf <? sizeof (hc_header c) then Raise (ValueError BufferTooSmall)
              else Ok (fresh (mkHdr c (ztake (sizeof (hc_header c)) buf)))
          | None => Ok i1
          end
        else Ok i1 in
      if check then
        match check_compatibility_c i with
        | (Ok _, i') => Ok i'
        | (Raise e, _) => Raise e
        end
      else Ok i
  end.

(** What a caller can do with a header object. *)
Inductive hop :=
| OpMajor | OpMinor | OpVersion   (* read a property *)
| OpCheck                         (* check_compatibility() *)
| OpWrite (b : list byte).        (* the memory is rewritten *)

Inductive hout :=
| OutInt (r : res Z) | OutText (r : res string) | OutCheck (r : res unit) | OutNone.

Definition hstep (o : hop) (i : hinst) : hout * hinst :=
  match o with
  | OpMajor => let (r, i') := major_version_c i in (OutInt r, i')
  | OpMinor => let (r, i') := minor_version_c i in (OutInt r, i')
  | OpVersion => let (r, i') := semantic_version_c i in (OutText r, i')
  | OpCheck => let (r, i') := check_compatibility_c i in (OutCheck r, i')
  | OpWrite b => (OutNone, mkInst (mkHdr (h_class (i_hdr i)) b) (i_cache i))
  end.

Fixpoint hhist (ops : list hop) (i : hinst) : list hout :=
  match ops with
  | [] => []
  | o :: r => let (x, i') := hstep o i in x :: hhist r i'
  end.
