(** * How much memory reading takes (for C54) *)
From Coq Require Import List ZArith Bool.
From Coq Require Import Init.Byte.
From Verif Require Import PyBase CTypes Model Spec.
Import ListNotations.
Open Scope list_scope.
Open Scope Z_scope.

(** Bytes held by the structs of a sample, and of several samples. *)
Definition object_memory (o : cobj) : Z := zlen (o_buf o).
Definition group_memory (k : chainer) : Z := object_memory (cg_cstat k) + object_memory (cg_proclist k).
Definition sum (l : list Z) : Z := fold_right Z.add 0 l.
Definition sample_memory (s : sample) : Z :=
  object_memory (s_record s) + object_memory (s_sstat s) +
  sum (map object_memory (s_tstats s)) + sum (map group_memory (s_cgroups s)).
Definition memory (ss : list sample) : Z := sum (map sample_memory ss).

(** The size of one cgroup struct of the version, 0 if it has none. *)
Definition cstat_size (vs : vspec) : Z := match vs_cstat vs with Some n => n | None => 0 end.
