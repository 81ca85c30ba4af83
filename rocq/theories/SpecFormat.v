(** * The file format, field by field (for C51)

    A row says where one scalar of a struct lies: the attribute path that names it, its byte
    offset, how it is stored and, for each array on the path, the number of slots, their distance
    and where the number of used slots is stored.  The rows of all versions are in
    SpecFormatTables.v. *)
From Coq Require Import List ZArith Bool String.
From Coq Require Import Init.Byte.
From Verif Require Import PyBase CTypes S_shared Model Spec SpecDict.
Import ListNotations.
Local Open Scope list_scope.
Local Open Scope Z_scope.

(** ** Rows *)

Inductive fkind :=
| Num (signed : bool) (size : Z)   (* little-endian, two's complement *)
| F32                              (* IEEE single *)
| Chr                              (* one character *)
| Text (size : Z).                 (* characters, ended by NUL if there is room *)
Definition U8 := Num false 1.
Definition I16 := Num true 2.
Definition U16 := Num false 2.
Definition I32 := Num true 4.
Definition U32 := Num false 4.
Definition I64 := Num true 8.
Definition U64 := Num false 8.

(** A step of a path: [.name] or [[i]]. *)
Inductive step := F (name : string) | E.

Record dim := D { d_slots : Z; d_dist : Z; d_used : option (Z * fkind) }.
Record row := R { r_path : list step; r_off : Z; r_kind : fkind; r_dims : list dim }.

(** ** Reading a scalar from the bytes of a struct *)

Fixpoint unsigned_at (b : list byte) (off : Z) (n : nat) : Z :=
  match n with O => 0 | S k => at8 b off + 256 * unsigned_at b (off + 1) k end.
Definition number_at (signed : bool) (size : Z) (b : list byte) (off : Z) : Z :=
  let u := unsigned_at b off (Z.to_nat size) in
  if signed && (2 ^ (8 * size - 1) <=? u) then u - 2 ^ (8 * size) else u.
Definition field_bytes (b : list byte) (off size : Z) : list byte :=
  firstn (Z.to_nat size) (skipn (Z.to_nat off) b).

(** The Python value of a scalar of kind [k] at [off] is [v]. *)
Definition holds (k : fkind) (b : list byte) (off : Z) (v : pyval) : Prop :=
  match k with
  | Num sg sz => v = PInt (number_at sg sz b off)
  | F32 => v = PFloat (unsigned_at b off 4)
  | Chr => v = PBytes [nth (Z.to_nat off) b x00]
  | Text n => exists s, v = PBytes s /\ c_string s (field_bytes b off n)
  end.
(** What is put into dictionaries for it is [j]. *)
Definition prints (k : fkind) (b : list byte) (off : Z) (j : json) : Prop :=
  match k with
  | Num sg sz => j = JInt (number_at sg sz b off)
  | F32 => j = JFloat (unsigned_at b off 4)
  | Chr => exists t, j = JStr t /\ lenient_text [nth (Z.to_nat off) b x00] t
  | Text n => exists s t, j = JStr t /\ c_string s (field_bytes b off n) /\ lenient_text s t
  end.

(** ** Which scalar: indices for the arrays on the path *)

Fixpoint in_slots (ds : list dim) (ix : list Z) : Prop :=
  match ds, ix with
  | [], [] => True
  | d :: ds, i :: ix => 0 <= i < d_slots d /\ in_slots ds ix
  | _, _ => False
  end.
Fixpoint distance (ds : list dim) (ix : list Z) : Z :=
  match ds, ix with d :: ds, i :: ix => i * d_dist d + distance ds ix | _, _ => 0 end.
Definition position (r : row) (ix : list Z) : Z := r_off r + distance (r_dims r) ix.

(** The number of slots that dictionaries list. *)
Definition slots_listed (b : list byte) (base : Z) (d : dim) : Z :=
  match d_used d with
  | Some (off, Num sg sz) => listed (number_at sg sz b (base + off)) (d_slots d)
  | _ => d_slots d
  end.
Fixpoint in_listed (b : list byte) (base : Z) (ds : list dim) (ix : list Z) : Prop :=
  match ds, ix with
  | [], [] => True
  | d :: ds, i :: ix => 0 <= i < slots_listed b base d /\ in_listed b (base + i * d_dist d) ds ix
  | _, _ => False
  end.
(** Reserved fields are not in dictionaries. *)
Definition reserved (r : row) : Prop := exists n, In (F n) (r_path r) /\ has_future n.

(** ** Following a path: [obj.a.b[i].c] and [j["a"]["b"][i]["c"]] *)

Fixpoint py_path (v : pyval) (p : list step) (ix : list Z) : option pyval :=
  match p, ix with
  | [], [] => Some v
  | F n :: p, _ => match v with
                   | PObj o => match getattr o n with Ok w => py_path w p ix | Raise _ => None end
                   | _ => None
                   end
  | E :: p, i :: ix => match v with
                       | PObj o => if 0 <=? i then
                                     match nth_error (array_items o) (Z.to_nat i) with
                                     | Some w => py_path w p ix
                                     | None => None
                                     end
                                   else None
                       | _ => None
                       end
  | _, _ => None
  end.

Fixpoint json_path (j : json) (p : list step) (ix : list Z) : option json :=
  match p, ix with
  | [], [] => Some j
  | F n :: p, _ => match j with
                   | JDict d => match assoc n d with Some w => json_path w p ix | None => None end
                   | _ => None
                   end
  | E :: p, i :: ix => match j with
                       | JList l => if 0 <=? i then
                                      match nth_error l (Z.to_nat i) with
                                      | Some w => json_path w p ix
                                      | None => None
                                      end
                                    else None
                       | _ => None
                       end
  | _, _ => None
  end.

Definition py_scalar (v : pyval) : Prop := match v with PObj _ => False | _ => True end.
Definition json_scalar (j : json) : Prop := match j with JList _ | JDict _ => False | _ => True end.

(** ** The parts of a log *)

Inductive part := PHeader | PRecord | PSStat | PTStat | PCStat.
Definition part_type (c : hclass) (p : part) : option ctype :=
  match p with
  | PHeader => Some (hc_header c)
  | PRecord => Some (hc_record c)
  | PSStat => Some (hc_sstat c)
  | PTStat => Some (hc_tstat c)
  | PCStat => hc_cstat c
  end.

Fixpoint for_version (version : string) (l : list (string * list row)) : list row :=
  match l with
  | [] => []
  | (v, rows) :: r => if String.eqb v version then rows else for_version version r
  end.
