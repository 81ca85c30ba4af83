(** * Python runtime fragment used by the model

    Everything in this file models Python behaviour that atoparser relies on, not
    atoparser itself; the place in /repo where each piece is used is cited. *)
From Coq Require Import List ZArith Lia Bool String Ascii.
From Coq Require Import Init.Byte Strings.Byte.
From Coq Require Import Decimal DecimalString DecimalZ.
Import ListNotations.
Open Scope Z_scope.

Arguments Z.add : simpl never.
Arguments Z.mul : simpl never.
Arguments Z.sub : simpl never.
Arguments Z.of_nat : simpl never.
Arguments Z.to_nat : simpl never.

(** ** Exceptions as values *)

(** Causes of the ValueErrors that the modelled code can raise.
    BadMagic: utils.py:150-152.  Incompatible: shared.py:58-61 (the list is [sizes], shared.py:47-57).
    BufferTooSmall: ctypes [from_buffer_copy] on too few bytes (utils.py:209, 243, 284, 289).
    NegativeArrayLength: ctypes [pid_t * n] with n < 0 (utils.py:287). *)
Inductive verr :=
| BadMagic (magic : Z)
| Incompatible (sizes : list (string * Z * Z))
| BufferTooSmall
| NegativeArrayLength
| NotAnInteger.

(** [IOErr n] is any exception raised by the file object itself (OSError, EOFError
    of a truncated gzip stream, ...); [n] only distinguishes them. *)
Inductive exn :=
| ValueError (v : verr)
| AttributeError (name : string)
| TypeError
| KeyError (k : string)
| ZlibError
| UnicodeDecodeError
| IOErr (n : Z).

(** Result of a Python call: a value or a raised exception. *)
Inductive res (A : Type) := Ok (a : A) | Raise (e : exn).
Arguments Ok {A} a.
Arguments Raise {A} e.

Definition rbind {A B} (r : res A) (k : A -> res B) : res B :=
  match r with Ok a => k a | Raise e => Raise e end.
Notation "'let?' x ':=' r 'in' k" := (rbind r (fun x => k))
  (at level 200, x pattern, r at level 100, k at level 200).

(** Sequencing a list of calls, stopping at the first exception. *)
Fixpoint rmap {A B} (f : A -> res B) (l : list A) : res (list B) :=
  match l with
  | [] => Ok []
  | x :: r => let? y := f x in let? ys := rmap f r in Ok (y :: ys)
  end.

(** ** Bytes, lengths and slices *)

Definition bval (b : byte) : Z := Z.of_N (Byte.to_N b).

Definition zlen {A} (l : list A) : Z := Z.of_nat (List.length l).
Definition ztake {A} (n : Z) (l : list A) : list A := firstn (Z.to_nat n) l.
Definition zdrop {A} (n : Z) (l : list A) : list A := skipn (Z.to_nat n) l.

(** Bytes [off, off+n) for non-negative [off] (ctypes field access). *)
Definition sub_bytes (off n : Z) (l : list byte) : list byte := ztake n (zdrop off l).

Definition zeros (n : Z) : list byte := repeat x00 (Z.to_nat n).

(** Python's index normalisation in a slice with step 1: a negative index counts
    from the end, then both ends are clamped to [0, len]. *)
Definition norm_index (len i : Z) : Z :=
  if i <? 0 then Z.max 0 (i + len) else Z.min i len.

(** [l[a:b]] for bytes and lists (utils.py:243, 284, 289). *)
Definition pyslice {A} (a b : Z) (l : list A) : list A :=
  let a' := norm_index (zlen l) a in
  let b' := norm_index (zlen l) b in
  ztake (b' - a') (zdrop a' l).

(** [l[:b]] (utils.py:319). *)
Definition pyslice_to {A} (b : Z) (l : list A) : list A := pyslice 0 b l.

(** ** Little-endian integers (ctypes on x86-64) *)

Fixpoint le_uint (l : list byte) : Z :=
  match l with
  | [] => 0
  | b :: r => bval b + 256 * le_uint r
  end.

(** Two's complement reading of an [n]-byte unsigned value. *)
Definition to_signed (n : Z) (u : Z) : Z :=
  if u <? 2 ^ (8 * n - 1) then u else u - 2 ^ (8 * n).

(** ** Decimal text *)

(** [str(int)] / f"{int}" (shared.py:88). *)
Definition str_of_int (z : Z) : string := NilZero.string_of_int (Z.to_int z).

(** [int(str)] for text that is a plain decimal numeral; Python accepts more spellings
    (surrounding blanks, underscores, '+'), which never occur here because the text
    comes from [str_of_int] (utils.py:105-106). *)
Definition int_of_str (s : string) : res Z :=
  match NilZero.int_of_string s with
  | Some i => Ok (Z.of_int i)
  | None => Raise (ValueError NotAnInteger)
  end.

(** [s.split(".")] (utils.py:105): the list of maximal dot-free pieces. *)
Fixpoint split_dot (s : string) : list string :=
  match s with
  | EmptyString => [EmptyString]
  | String c r =>
      if Ascii.eqb c "."%char then EmptyString :: split_dot r
      else match split_dot r with
           | [] => [String c EmptyString]
           | p :: ps => String c p :: ps
           end
  end.

(** Python's [needle in haystack] for strings (reader.py:79, utils.py:313). *)
Fixpoint str_contains (needle hay : string) : bool :=
  String.prefix needle hay ||
  match hay with
  | EmptyString => false
  | String _ r => str_contains needle r
  end.

(** ** Dictionaries: insertion-ordered, assignment to an existing key keeps its place. *)

Fixpoint dict_set {V} (d : list (string * V)) (k : string) (v : V) : list (string * V) :=
  match d with
  | [] => [(k, v)]
  | (k', v') :: r => if String.eqb k k' then (k', v) :: r else (k', v') :: dict_set r k v
  end.

Fixpoint assoc {V} (k : string) (d : list (string * V)) : option V :=
  match d with
  | [] => None
  | (k', v) :: r => if String.eqb k k' then Some v else assoc k r
  end.

(** ** The file object

    [f_rem]: bytes not yet consumed.  [f_fault]: the exception raised by a read that
    asks for more bytes than are left; [None] for BytesIO and ordinary files, which
    return what is left.  (gzip.open of a cut file raises EOFError there, and zlib.error
    or BadGzipFile if it is corrupt.)  Reads through BytesIO, BufferedReader and GzipFile
    are short only at the end of the data. *)
Record file := mkFile { f_rem : list byte; f_fault : option exn }.

Definition plain (l : list byte) : file := mkFile l None.

(** [raw_file.read(n)] for n >= 0 (utils.py:207, 233, 268, 270).  After a fault the
    bytes that were left are lost. *)
Definition fread (n : Z) (f : file) : res (list byte) * file :=
  if n <=? zlen (f_rem f) then
    (Ok (ztake n (f_rem f)), mkFile (zdrop n (f_rem f)) (f_fault f))
  else
    match f_fault f with
    | None => (Ok (f_rem f), mkFile [] None)
    | Some e => (Raise e, mkFile [] (Some e))
    end.

(** [raw_file.readinto(struct)] into a fresh all-zero struct of [n] bytes
    (utils.py:148, 183): the bytes read replace the leading bytes. *)
Definition freadinto (n : Z) (f : file) : res (list byte) * file :=
  match fread n f with
  | (Ok b, f') => (Ok (b ++ zeros (n - zlen b)), f')
  | (Raise e, f') => (Raise e, f')
  end.

(** State-and-exception sequencing: on an exception the file keeps the state it had. *)
Definition M (A : Type) := file -> res A * file.
Definition mret {A} (a : A) : M A := fun f => (Ok a, f).
Definition mlift {A} (r : res A) : M A := fun f => (r, f).
Definition mbind {A B} (m : M A) (k : A -> M B) : M B :=
  fun f => match m f with
           | (Ok a, f') => k a f'
           | (Raise e, f') => (Raise e, f')
           end.
Notation "'let!' x ':=' m 'in' k" := (mbind m (fun x => k))
  (at level 200, x pattern, m at level 100, k at level 200).
