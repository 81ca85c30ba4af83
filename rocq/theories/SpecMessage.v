(** * What the error texts say

    Independent of the model: hexadecimal and decimal texts by how they are read, the lengths by
    their byte offsets in the file. *)
From Coq Require Import List ZArith Bool String.
From Coq Require Import Init.Byte.
From Verif Require Import Spec SpecJson.
Import ListNotations.
Open Scope list_scope.
Open Scope Z_scope.

(** [s] is n in hexadecimal: "0x", lower-case digits, no leading zeros. *)
Definition hex_reads (s : list Z) (n : Z) : Prop :=
  exists ds, s = codes "0x" ++ ds /\ ds <> [] /\ (hd 49 ds = 48 -> ds = [48]) /\
    (forall c, In c ds -> 48 <= c <= 57 \/ 97 <= c <= 102) /\
    fold_left (fun a c => 16 * a + (if c <=? 57 then c - 48 else c - 87)) ds 0 = n.

(** [s] is the Python tuple of a name in single quotes and two integers in decimal. *)
Definition row_reads (s : list Z) (row : string * Z * Z) : Prop :=
  let '(name, found, expected) := row in
  exists tf te, s = codes "('" ++ codes name ++ codes "', " ++ tf ++ codes ", " ++ te ++ codes ")" /\
    int_text tf = Some found /\ int_text te = Some expected.

(** [s] is the rows separated by a comma and a space. *)
Inductive rows_read : list Z -> list (string * Z * Z) -> Prop :=
| one_row s r : row_reads s r -> rows_read s [r]
| more_rows s t r l : row_reads s r -> rows_read t l -> rows_read (s ++ codes ", " ++ t) (r :: l).

(** What a file's header says about the struct lengths, and what version [vs] expects. *)
Definition lengths_of (vs : vspec) (b : list byte) : list (string * Z * Z) :=
  [("Header"%string, u16_at b 10, header_size);
   ("Record"%string, u16_at b 12, vs_rec vs);
   ("SStat"%string, u32_at b 28, vs_sstat vs);
   ((if vs_major vs =? 1 then "PStat"%string else "TStat"%string), u32_at b 32, vs_tstat vs)]
  ++ match vs_cstat vs with Some n => [("CStat"%string, i32_at b 456, n)] | None => [] end.

(** A file of a version the library does not know, with major >= 2 and minor >= 3, is compared
    with version 2.12, without the cgroup length when its minor is below 11. *)
Definition unknown_lengths_of (b : list byte) : list (string * Z * Z) :=
  [("Header"%string, u16_at b 10, 480);
   ("Record"%string, u16_at b 12, 96);
   ("SStat"%string, u32_at b 28, 1064016);
   ("TStat"%string, u32_at b 32, 968)]
  ++ (if 11 <=? minor_of b then [("CStat"%string, i32_at b 456, 432)] else []).

Definition wrong_magic_text : string :=
  "File does not contain raw atop output (wrong magic number): ".
Definition incompatible_text : string :=
  "File has incompatible Atop format. Struct length evaluations (type, found, expected): ".
