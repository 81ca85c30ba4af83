(** * Where the cgroups of a sample are found, for any data (for C19)

    Written against Python's documented slice rule (an index below 0 counts from the end, then
    both ends are brought into the data), not against the model's slices. *)
From Coq Require Import List ZArith.
From Coq Require Import Init.Byte.
From Verif Require Import PyBase CTypes S_shared Model Spec.
Import ListNotations.
Open Scope list_scope.
Open Scope Z_scope.

(** Slice index [i] of data of [len] bytes means position [p]. *)
Inductive position (len : Z) : Z -> Z -> Prop :=
| pos_in i : 0 <= i <= len -> position len i i
| pos_over i : len < i -> position len i len
| pos_back i : i < 0 -> 0 <= len + i -> position len i (len + i)
| pos_under i : len + i < 0 -> i < 0 -> position len i 0.

(** The cgroup structs (of [size] bytes) and pid lists found in [dc] and [dp] when a header says
    that structs are [len] bytes long, starting at slice index [a] of [dc] and byte [b] of [dp].
    Each struct says at offset 0 how far the next one is, and at offset 16 how many pids it has. *)
Inductive groups_at (size len : Z) (dc dp : list byte) : Z -> Z -> list (list byte * list byte) -> Prop :=
| ga_none a b : groups_at size len dc dp a b []
| ga_more a b pa pz rest :
    position (zlen dc) a pa -> position (zlen dc) (a + len) pz -> size <= pz - pa ->
    let struct := sub_bytes pa size dc in
    let nprocs := i32_at struct 16 in
    0 <= nprocs -> b + 4 * nprocs <= zlen dp ->
    groups_at size len dc dp (a + i32_at struct 0) (b + 4 * nprocs) rest ->
    groups_at size len dc dp a b ((struct, sub_bytes b (4 * nprocs) dp) :: rest).

(** What a caller sees of a cgroup: the struct, and an array of as many pids as it says. *)
Definition shows_group (ct : ctype) (g : list byte * list byte) (k : chainer) : Prop :=
  cg_cstat k = mkObj ct (fst g) /\ cg_proclist k = mkObj (TArr sh_pid_t (i32_at (fst g) 16)) (snd g) /\
  zlen (array_items (cg_proclist k)) = i32_at (fst g) 16 /\
  forall i, 0 <= i < i32_at (fst g) 16 -> nth_error (array_items (cg_proclist k)) (Z.to_nat i) = Some (PInt (i32_at (snd g) (4 * i))).
