(** * The part of ctypes used by atoparser

    Struct types with the layout rules of ctypes on little-endian LP64 (x86-64 Linux):
    natural alignment, declaration order, no packing.  A struct or array instance is a type
    together with its bytes; attributes are decoded on access, as ctypes does. *)
From Coq Require Import List ZArith Lia Bool String.
From Coq Require Import Init.Byte.
From Verif Require Import PyBase.
Import ListNotations.
Open Scope Z_scope.

(** [TInt signed size]: c_short/c_ushort (2), c_int/c_uint/c_int32 (4), c_uint8 (1),
    c_long/c_ulong/c_longlong (8).  [TChar]: c_char.  [TArr t n]: [t * n].
    [TStruct name fields limiters]: a ctypes.Structure subclass; [name] is the qualified
    Python class name and stands for class identity; [limiters] is the class attribute
    [fields_limiters] ([[]] when absent). *)
Inductive ctype :=
| TInt (sg : bool) (sz : Z)
| TFloat
| TChar
| TArr (elt : ctype) (n : Z)
| TStruct (name : string) (fs : list (string * ctype)) (lims : list (string * string)).

Definition align_up (off a : Z) : Z := ((off + a - 1) / a) * a.

Fixpoint alignof (t : ctype) : Z :=
  match t with
  | TInt _ sz => sz
  | TFloat => 4
  | TChar => 1
  | TArr e _ => alignof e
  | TStruct _ fs _ => fold_right (fun f m => Z.max (alignof (snd f)) m) 1 fs
  end.

(** ctypes.sizeof *)
Fixpoint sizeof (t : ctype) : Z :=
  match t with
  | TInt _ sz => sz
  | TFloat => 4
  | TChar => 1
  | TArr e n => sizeof e * n
  | TStruct _ fs _ =>
      align_up
        (fold_left (fun off f => align_up off (alignof (snd f)) + sizeof (snd f)) fs 0)
        (fold_right (fun f m => Z.max (alignof (snd f)) m) 1 fs)
  end.

(** Offsets of the fields, starting at offset [off]. *)
Fixpoint layout_from (off : Z) (fs : list (string * ctype)) : list (string * (Z * ctype)) :=
  match fs with
  | [] => []
  | (n, t) :: r =>
      let o := align_up off (alignof t) in
      (n, (o, t)) :: layout_from (o + sizeof t) r
  end.

Definition struct_fields (t : ctype) : list (string * ctype) :=
  match t with TStruct _ fs _ => fs | _ => [] end.

Definition struct_limiters (t : ctype) : list (string * string) :=
  match t with TStruct _ _ l => l | _ => [] end.

Definition struct_name (t : ctype) : string :=
  match t with TStruct n _ _ => n | _ => EmptyString end.

Definition layout (t : ctype) : list (string * (Z * ctype)) := layout_from 0 (struct_fields t).

(** The descriptor found by attribute lookup.  Were a name declared twice the later
    declaration would win, as in ctypes. *)
Definition field_at (t : ctype) (name : string) : option (Z * ctype) :=
  assoc name (rev (layout t)).

(** ** Instances *)

(** A ctypes instance (struct or array): its class and its memory. *)
Record cobj := mkObj { o_type : ctype; o_buf : list byte }.

(** What attribute access returns: Python int, float (32-bit pattern of the c_float),
    bytes, or a nested struct/array instance. *)
Inductive pyval :=
| PInt (z : Z)
| PFloat (bits : Z)
| PBytes (l : list byte)
| PObj (o : cobj).

(** The value of a [c_char * n] field: bytes up to the first NUL. *)
Fixpoint until_nul (l : list byte) : list byte :=
  match l with
  | [] => []
  | b :: r => if Byte.eqb b x00 then [] else b :: until_nul r
  end.

Definition int_value (sg : bool) (sz : Z) (b : list byte) : Z :=
  if sg then to_signed sz (le_uint b) else le_uint b.

(** Conversion of the bytes of one field (or array element) of type [t]. *)
Definition fetch (t : ctype) (b : list byte) : pyval :=
  match t with
  | TInt sg sz => PInt (int_value sg sz b)
  | TFloat => PFloat (le_uint b)
  | TChar => PBytes b
  | TArr TChar _ => PBytes (until_nul b)
  | TArr _ _ | TStruct _ _ _ => PObj (mkObj t b)
  end.

(** [getattr(obj, name)] for a declared field; AttributeError otherwise. *)
Definition getattr (o : cobj) (name : string) : res pyval :=
  match field_at (o_type o) name with
  | Some (off, t) => Ok (fetch t (sub_bytes off (sizeof t) (o_buf o)))
  | None => Raise (AttributeError name)
  end.

(** Attribute used as an integer (arithmetic or comparison in the Python code). *)
Definition getint (o : cobj) (name : string) : res Z :=
  let? v := getattr o name in
  match v with PInt z => Ok z | _ => Raise TypeError end.

(** Attribute used as a nested struct or array. *)
Definition getobj (o : cobj) (name : string) : res cobj :=
  let? v := getattr o name in
  match v with PObj x => Ok x | _ => Raise (AttributeError name) end.

(** Attribute used as bytes. *)
Definition getbytes (o : cobj) (name : string) : res (list byte) :=
  let? v := getattr o name in
  match v with PBytes x => Ok x | _ => Raise (AttributeError name) end.

(** Consecutive [sz]-byte pieces of a buffer. *)
Fixpoint chunks (n : nat) (sz : Z) (b : list byte) : list (list byte) :=
  match n with
  | O => []
  | S k => ztake sz b :: chunks k sz (zdrop sz b)
  end.

(** Iteration over a ctypes array instance. *)
Definition array_items (o : cobj) : list pyval :=
  match o_type o with
  | TArr e n => map (fetch e) (chunks (Z.to_nat n) (sizeof e) (o_buf o))
  | _ => []
  end.

(** [T.from_buffer_copy(bytes)]: needs at least sizeof(T) bytes, takes the leading ones. *)
Definition from_buffer_copy (t : ctype) (b : list byte) : res cobj :=
  if zlen b <? sizeof t then Raise (ValueError BufferTooSmall)
  else Ok (mkObj t (ztake (sizeof t) b)).
