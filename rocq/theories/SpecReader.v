(** * What the command line prints (for C36-C39, C43)

    In terms of the contents of a log ([hb], [lsample]s), the value of a struct image ([rep],
    [dict_of]) and the row specifications of SpecRows.v. *)
From Coq Require Import List ZArith Bool String.
From Coq Require Import Init.Byte.
From Verif Require Import PyBase CTypes S_shared Model Spec SpecDict SpecLog SpecRows SpecGzip.
Import ListNotations.
Local Open Scope list_scope.
Local Open Scope Z_scope.

(** The three characters ".gz" occur in the path. *)
Definition gz_path (path : list Z) : Prop := exists a b, path = a ++ [46; 103; 122] ++ b.

(** [j] is the dictionary of the struct of type [t] stored in the bytes [b]. *)
Definition describes (t : ctype) (b : list byte) (j : json) : Prop :=
  exists v, rep t v b /\ j = dict_of t v.

(** The dictionary of a cgroup: its struct, and its pids. *)
Definition group_entry (ct : ctype) (g : lgroup) (j : json) : Prop :=
  exists jc, describes ct (lg_cstat g) jc /\
    j = JDict [("cstat"%string, jc); ("proclist"%string, JList (map JInt (lg_pids g)))].

(** The entry of one sample without parseables. *)
Definition full_entry (c : hclass) (hb : list byte) (tstats cstats : bool) (s : lsample) (j : json) : Prop :=
  exists jh jr js jts jgs,
    describes (hc_header c) hb jh /\ describes (hc_record c) (ls_record s) jr /\
    describes (hc_sstat c) (ls_sstat s) js /\
    Forall2 (describes (hc_tstat c)) (ls_tstats s) jts /\
    match hc_cstat c with
    | Some ct => Forall2 (group_entry ct) (ls_groups s) jgs
    | None => jgs = []
    end /\
    j = JDict ([("header"%string, jh); ("record"%string, jr); ("sstat"%string, js)] ++
               (if tstats then [("tstat"%string, JList jts)] else []) ++
               (if cstats then [("cgroup"%string, JList jgs)] else [])).

(** The rows of each parseable, for the bytes of header, record, system statistics and
    processes; the second component is the exception that ends them, if any. *)
Definition core_rows_of (h r s : list byte) : list (list (string * json)) :=
  map (fun i => core_row h r (piece s (192 + 112 * Z.of_nat i) 112) (Z.of_nat i))
      (seq 0 (Z.to_nat (Z.min (cores s) 64))).

Inductive rows_of (h r s : list byte) (ts : list (list byte))
  : string -> list (list (string * json)) * option exn -> Prop :=
| of_cpu : rows_of h r s ts "cpu" (core_rows_of h r s, None)
| of_CPL : rows_of h r s ts "CPL" ([load_row r s], None)
| of_CPU : rows_of h r s ts "CPU" ([cpu_row h r s], None)
| of_MEM : rows_of h r s ts "MEM" ([mem_row h r s], None)
| of_SWP : rows_of h r s ts "SWP" ([swap_row h r s], None)
| of_PAG : rows_of h r s ts "PAG" ([paging_row h r s], None)
| of_NETU : rows_of h r s ts "NETU" ([net_row r s], None)
| of_DSK o : rows_spec unused (device_ok 32 (disk_spec r)) (device_bad 32) (disk_slots s) o -> rows_of h r s ts "DSK" o
| of_LVM o : rows_spec unused (device_ok 32 (disk_spec r)) (device_bad 32) (lvm_slots s) o -> rows_of h r s ts "LVM" o
| of_MDD o : rows_spec unused (device_ok 32 (disk_spec r)) (device_bad 32) (mdd_slots s) o -> rows_of h r s ts "MDD" o
| of_NETL o : rows_spec unused (device_ok 16 (intf_spec r)) (device_bad 16) (intf_slots s) o -> rows_of h r s ts "NETL" o
| of_PRC o : rows_spec never (task_ok (prc_spec h r)) task_bad ts o -> rows_of h r s ts "PRC" o
| of_PRM o : rows_spec never (task_ok (prm_spec h r)) task_bad ts o -> rows_of h r s ts "PRM" o
| of_PRN o : rows_spec never (task_ok (prn_spec h r)) task_bad ts o -> rows_of h r s ts "PRN" o
| of_PRG o : rows_spec never (task_cmd_ok (prg_spec h r)) task_cmd_bad ts o -> rows_of h r s ts "PRG" o.

(** The fifteen names accepted on the command line. *)
Definition parseable_names : list string :=
  ["cpu"; "CPL"; "CPU"; "DSK"; "LVM"; "MDD"; "MEM"; "NETL"; "NETU"; "PAG"; "PRC"; "PRG"; "PRM"; "PRN"; "SWP"]%string.

(** A row, tagged with the parseable it is for. *)
Definition tagged (p : string) (row : list (string * json)) : json := JDict (row ++ [("parseable"%string, str p)]).

(** The entries of one sample: parseable by parseable, in the order requested; the first
    parseable that fails ends it. *)
Inductive sample_rows (h : list byte) (s : lsample) : list string -> list json -> option exn -> Prop :=
| sr_end : sample_rows h s [] [] None
| sr_rows p ps rows more e :
    rows_of h (ls_record s) (ls_sstat s) (ls_tstats s) p (rows, None) -> sample_rows h s ps more e ->
    sample_rows h s (p :: ps) (map (tagged p) rows ++ more) e
| sr_fail p ps rows e :
    rows_of h (ls_record s) (ls_sstat s) (ls_tstats s) p (rows, Some e) -> sample_rows h s (p :: ps) [] (Some e).

(** The entries of a log: sample by sample; the first sample that fails ends it. *)
Inductive log_rows (h : list byte) (ps : list string) : list lsample -> list json -> option exn -> Prop :=
| lr_end : log_rows h ps [] [] None
| lr_sample s ss rows more e :
    sample_rows h s ps rows None -> log_rows h ps ss more e -> log_rows h ps (s :: ss) (rows ++ more) e
| lr_fail s ss rows e : sample_rows h s ps rows (Some e) -> log_rows h ps (s :: ss) [] (Some e).

(** The contents of an object yielded by the iterator, as a log sample (without file blocks). *)
Definition raw_group (k : chainer) : lgroup :=
  mkLG (o_buf (cg_cstat k)) []
       (map (fun i => i32_at (o_buf (cg_proclist k)) (4 * Z.of_nat i))
            (seq 0 (Z.to_nat (i32_at (o_buf (cg_cstat k)) 16)))).
Definition raw_sample (y : sample) : lsample :=
  mkLS (o_buf (s_record y)) (o_buf (s_sstat y)) (map o_buf (s_tstats y)) (map raw_group (s_cgroups y)) [] [] [] [].

(** Opening [path] when it holds [stored] delivers the bytes [data]. *)
Definition delivers (path : list Z) (stored data : list byte) : Prop :=
  (gz_path path /\ gzip_data stored data) \/ (~ gz_path path /\ data = stored).
