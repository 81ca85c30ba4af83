(** * What the objects and dictionaries of a log must hold, by the tables (for C51) *)
From Coq Require Import List ZArith Bool String.
From Coq Require Import Init.Byte.
From Verif Require Import PyBase CTypes S_shared Model Spec SpecFormat SpecFormatTables.
Import ListNotations.
Local Open Scope list_scope.
Local Open Scope Z_scope.

(** The scalar [obj.p] with the indices [ix] is [v], for a part [q] of a log of version [version]
    with the bytes [b]. *)
Definition attribute_is (q : part) (version : string) (b : list byte) (p : list step) (ix : list Z) (v : pyval) : Prop :=
  exists r, In r (format q version) /\ r_path r = p /\ in_slots (r_dims r) ix /\ holds (r_kind r) b (position r ix) v.

(** The dictionary of that part has the scalar [x] under the path [p] with the indices [ix]. *)
Definition entry_is (q : part) (version : string) (b : list byte) (p : list step) (ix : list Z) (x : json) : Prop :=
  exists r, In r (format q version) /\ r_path r = p /\ ~ reserved r /\
            in_listed b 0 (r_dims r) ix /\ prints (r_kind r) b (position r ix) x.

(** The bytes of a part. *)
Definition part_size (vs : vspec) (q : part) : option Z :=
  match q with
  | PHeader => Some header_size
  | PRecord => Some (vs_rec vs)
  | PSStat => Some (vs_sstat vs)
  | PTStat => Some (vs_tstat vs)
  | PCStat => vs_cstat vs
  end.

(** The entry printed for the sample [s]: what is under which path. *)
Inductive sample_entry_is (version : string) (hb : list byte) (s : lsample) (tstats cstats : bool)
  : list step -> list Z -> json -> Prop :=
| in_header p ix x : entry_is PHeader version hb p ix x ->
    sample_entry_is version hb s tstats cstats (F "header" :: p) ix x
| in_record p ix x : entry_is PRecord version (ls_record s) p ix x ->
    sample_entry_is version hb s tstats cstats (F "record" :: p) ix x
| in_sstat p ix x : entry_is PSStat version (ls_sstat s) p ix x ->
    sample_entry_is version hb s tstats cstats (F "sstat" :: p) ix x
| in_tstat i b p ix x : tstats = true -> nth_error (ls_tstats s) i = Some b -> entry_is PTStat version b p ix x ->
    sample_entry_is version hb s tstats cstats (F "tstat" :: E :: p) (Z.of_nat i :: ix) x
| in_cstat i g p ix x : cstats = true -> nth_error (ls_groups s) i = Some g -> entry_is PCStat version (lg_cstat g) p ix x ->
    sample_entry_is version hb s tstats cstats (F "cgroup" :: E :: F "cstat" :: p) (Z.of_nat i :: ix) x
| in_pids i g j pid : cstats = true -> nth_error (ls_groups s) i = Some g -> nth_error (lg_pids g) j = Some pid ->
    sample_entry_is version hb s tstats cstats [F "cgroup"; E; F "proclist"; E] [Z.of_nat i; Z.of_nat j] (JInt pid).

(** The objects of a sample. *)
Definition object_is (q : part) (version : string) (b : list byte) (o : cobj) : Prop :=
  forall p ix v, py_scalar v -> (py_path (PObj o) p ix = Some v <-> attribute_is q version b p ix v).
Definition sample_is (version : string) (s : lsample) (y : sample) : Prop :=
  object_is PRecord version (ls_record s) (s_record y) /\
  object_is PSStat version (ls_sstat s) (s_sstat y) /\
  Forall2 (object_is PTStat version) (ls_tstats s) (s_tstats y) /\
  Forall2 (fun g k => object_is PCStat version (lg_cstat g) (cg_cstat k) /\
                      array_items (cg_proclist k) = map PInt (lg_pids g)) (ls_groups s) (s_cgroups y).
