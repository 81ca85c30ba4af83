(** * Specification for C61: damaged logs *)
From Coq Require Import List ZArith.
From Coq Require Import Init.Byte.
From Verif Require Import PyBase Spec SpecDeflate.
Import ListNotations.
Local Open Scope list_scope.
Local Open Scope Z_scope.

(** [block_replaced s z z' s']: in the sample [s] one of the four compressed blocks, [z], is
    replaced by [z']; the record, the other blocks and (as the writer knows them) the contents
    stay the same. *)
Inductive block_replaced : lsample -> list byte -> list byte -> lsample -> Prop :=
| br_system rb ss ts gs cs ct cc ci z' :
    block_replaced (mkLS rb ss ts gs cs ct cc ci) cs z' (mkLS rb ss ts gs z' ct cc ci)
| br_tasks rb ss ts gs cs ct cc ci z' :
    block_replaced (mkLS rb ss ts gs cs ct cc ci) ct z' (mkLS rb ss ts gs cs z' cc ci)
| br_cgroups rb ss ts gs cs ct cc ci z' :
    block_replaced (mkLS rb ss ts gs cs ct cc ci) cc z' (mkLS rb ss ts gs cs ct z' ci)
| br_pids rb ss ts gs cs ct cc ci z' :
    block_replaced (mkLS rb ss ts gs cs ct cc ci) ci z' (mkLS rb ss ts gs cs ct cc z').

(** [slightly_changed d d']: the same data but for one byte, or for two bytes less than 65521
    places apart. *)
Inductive slightly_changed : list byte -> list byte -> Prop :=
| one_byte p a a' q : a <> a' -> slightly_changed (p ++ a :: q) (p ++ a' :: q)
| two_bytes p a a' m b b' q : a <> a' -> b <> b' -> zlen m + 1 < 65521 ->
    slightly_changed (p ++ a :: m ++ b :: q) (p ++ a' :: m ++ b' :: q).

(** [compressed body d t]: the bytes [body], when the bytes [t] follow, are deflate blocks for
    the data [d] (the checksum, and with it whether zlib accepts them, left open). *)
Definition compressed (body d t : list byte) : Prop :=
  exists pad, zlen pad < 8 /\ deflated [] (data_bits (body ++ t)) d (pad ++ data_bits t).
