(** * Struct tables of atoparser/structs/atop_2_4.py

    GENERATED by tools/gen_structs.py from the text of that file; do not edit. *)
From Coq Require Import List ZArith String.
From Verif Require Import PyBase CTypes S_shared S_1_26 S_2_3.
Import ListNotations.
Local Open Scope Z_scope.
Local Open Scope string_scope.

Definition a2_4_ACCTACTIVE : Z := 1. (* structs/atop_2_4.py:27 *)
Definition a2_4_IOSTAT : Z := 4. (* structs/atop_2_4.py:28 *)
Definition a2_4_NETATOP : Z := 16. (* structs/atop_2_4.py:29 *)
Definition a2_4_NETATOPD : Z := 32. (* structs/atop_2_4.py:30 *)
Definition a2_4_DOCKSTAT : Z := 64. (* structs/atop_2_4.py:31 *)
Definition a2_4_GPUSTAT : Z := 128. (* structs/atop_2_4.py:32 *)
Definition a2_4_PNAMLEN : Z := 15. (* structs/atop_2_4.py:35 *)
Definition a2_4_CMDLEN : Z := 255. (* structs/atop_2_4.py:36 *)
Definition a2_4_MAXCPU : Z := 2048. (* structs/atop_2_4.py:39 *)
Definition a2_4_MAXDSK : Z := 1024. (* structs/atop_2_4.py:40 *)
Definition a2_4_MAXLVM : Z := 2048. (* structs/atop_2_4.py:41 *)
Definition a2_4_MAXMDD : Z := 256. (* structs/atop_2_4.py:42 *)
Definition a2_4_MAXINTF : Z := 128. (* structs/atop_2_4.py:43 *)
Definition a2_4_MAXCONTAINER : Z := 128. (* structs/atop_2_4.py:44 *)
Definition a2_4_MAXNFSMOUNT : Z := 64. (* structs/atop_2_4.py:45 *)
Definition a2_4_MAXIBPORT : Z := 32. (* structs/atop_2_4.py:46 *)
Definition a2_4_MAXGPU : Z := 32. (* structs/atop_2_4.py:47 *)
Definition a2_4_MAXGPUBUS : Z := 12. (* structs/atop_2_4.py:48 *)
Definition a2_4_MAXGPUTYPE : Z := 12. (* structs/atop_2_4.py:49 *)
Definition a2_4_MAXDKNAM : Z := 32. (* structs/atop_2_4.py:50 *)
Definition a2_4_MAXIBNAME : Z := 12. (* structs/atop_2_4.py:51 *)
Definition a2_4_Record : ctype := a2_3_Record. (* structs/atop_2_4.py:54 *)
Definition a2_4_MemStat : ctype := a2_3_MemStat. (* structs/atop_2_4.py:57 *)
Definition a2_4_FreqCnt : ctype := a1_26_FreqCnt. (* structs/atop_2_4.py:60 *)
(** structs/atop_2_4.py:63-86 class PerCPU. *)
Definition a2_4_PerCPU : ctype := TStruct "atop_2_4.PerCPU" [
    ("cpunr", (TInt true 4));
    ("stime", sh_count_t);
    ("utime", sh_count_t);
    ("ntime", sh_count_t);
    ("itime", sh_count_t);
    ("wtime", sh_count_t);
    ("Itime", sh_count_t);
    ("Stime", sh_count_t);
    ("steal", sh_count_t);
    ("guest", sh_count_t);
    ("freqcnt", a2_4_FreqCnt);
    ("instr", sh_count_t);
    ("cycle", sh_count_t);
    ("cfuture", (TArr sh_count_t 2))
  ] [].
(** structs/atop_2_4.py:89-109 class CPUStat. *)
Definition a2_4_CPUStat : ctype := TStruct "atop_2_4.CPUStat" [
    ("nrcpu", sh_count_t);
    ("devint", sh_count_t);
    ("csw", sh_count_t);
    ("nprocs", sh_count_t);
    ("lavg1", (TFloat));
    ("lavg5", (TFloat));
    ("lavg15", (TFloat));
    ("cfuture", (TArr sh_count_t 4));
    ("all", a2_4_PerCPU);
    ("cpu", (TArr a2_4_PerCPU a2_4_MAXCPU))
  ] [("cpu", "nrcpu")].
Definition a2_4_PerDSK : ctype := a2_3_PerDSK. (* structs/atop_2_4.py:112 *)
Definition a2_4_DSKStat : ctype := a2_3_DSKStat. (* structs/atop_2_4.py:115 *)
Definition a2_4_PerIntf : ctype := a2_3_PerIntf. (* structs/atop_2_4.py:118 *)
Definition a2_4_IntfStat : ctype := a2_3_IntfStat. (* structs/atop_2_4.py:121 *)
Definition a2_4_PerNFSMount : ctype := a2_3_PerNFSMount. (* structs/atop_2_4.py:124 *)
Definition a2_4_Server : ctype := a2_3_Server. (* structs/atop_2_4.py:127 *)
Definition a2_4_Client : ctype := a2_3_Client. (* structs/atop_2_4.py:130 *)
Definition a2_4_NFSMounts : ctype := a2_3_NFSMounts. (* structs/atop_2_4.py:133 *)
Definition a2_4_NFSStat : ctype := a2_3_NFSStat. (* structs/atop_2_4.py:136 *)
(** structs/atop_2_4.py:139-152 class PSI. *)
Definition a2_4_PSI : ctype := TStruct "atop_2_4.PSI" [
    ("avg10", (TFloat));
    ("avg60", (TFloat));
    ("avg300", (TFloat));
    ("total", sh_count_t)
  ] [].
(** structs/atop_2_4.py:155-171 class Pressure. *)
Definition a2_4_Pressure : ctype := TStruct "atop_2_4.Pressure" [
    ("present", (TChar));
    ("future", (TArr (TChar) 3));
    ("cpusome", a2_4_PSI);
    ("memsome", a2_4_PSI);
    ("memfull", a2_4_PSI);
    ("iosome", a2_4_PSI);
    ("iofull", a2_4_PSI)
  ] [].
Definition a2_4_PerContainer : ctype := a2_3_PerContainer. (* structs/atop_2_4.py:174 *)
Definition a2_4_ContStat : ctype := a2_3_ContStat. (* structs/atop_2_4.py:177 *)
Definition a2_4_WWWStat : ctype := a1_26_WWWStat. (* structs/atop_2_4.py:180 *)
(** structs/atop_2_4.py:183-205 class PerGPU. *)
Definition a2_4_PerGPU : ctype := TStruct "atop_2_4.PerGPU" [
    ("taskstats", (TChar));
    ("nrprocs", (TInt false 1));
    ("type", (TArr (TChar) (a2_4_MAXGPUTYPE + 1)));
    ("busid", (TArr (TChar) (a2_4_MAXGPUBUS + 1)));
    ("gpunr", (TInt true 4));
    ("gpupercnow", (TInt true 4));
    ("mempercnow", (TInt true 4));
    ("memtotnow", sh_count_t);
    ("memusenow", sh_count_t);
    ("samples", sh_count_t);
    ("gpuperccum", sh_count_t);
    ("memperccum", sh_count_t);
    ("memusecum", sh_count_t)
  ] [].
(** structs/atop_2_4.py:208-222 class GPUStat. *)
Definition a2_4_GPUStat : ctype := TStruct "atop_2_4.GPUStat" [
    ("nrgpus", (TInt true 4));
    ("gpu", (TArr a2_4_PerGPU a2_4_MAXGPU))
  ] [("gpu", "nrgpus")].
(** structs/atop_2_4.py:225-242 class PerIFB. *)
Definition a2_4_PerIFB : ctype := TStruct "atop_2_4.PerIFB" [
    ("ibname", (TArr (TChar) a2_4_MAXIBNAME));
    ("portnr", (TInt true 2));
    ("lanes", (TInt true 2));
    ("rate", sh_count_t);
    ("rcvb", sh_count_t);
    ("sndb", sh_count_t);
    ("rcvp", sh_count_t);
    ("sndp", sh_count_t)
  ] [].
(** structs/atop_2_4.py:245-259 class IFBStat. *)
Definition a2_4_IFBStat : ctype := TStruct "atop_2_4.IFBStat" [
    ("nrports", (TInt true 4));
    ("ifb", (TArr a2_4_PerIFB a2_4_MAXIBPORT))
  ] [("ifb", "nrports")].
Definition a2_4_IPv4Stats : ctype := a1_26_IPv4Stats. (* structs/atop_2_4.py:262 *)
Definition a2_4_ICMPv4Stats : ctype := a1_26_ICMPv4Stats. (* structs/atop_2_4.py:265 *)
Definition a2_4_UDPv4Stats : ctype := a1_26_UDPv4Stats. (* structs/atop_2_4.py:268 *)
Definition a2_4_TCPStats : ctype := a1_26_TCPStats. (* structs/atop_2_4.py:271 *)
Definition a2_4_IPv6Stats : ctype := a1_26_IPv6Stats. (* structs/atop_2_4.py:274 *)
Definition a2_4_ICMPv6Stats : ctype := a1_26_ICMPv6Stats. (* structs/atop_2_4.py:277 *)
Definition a2_4_UDPv6Stats : ctype := a1_26_UDPv6Stats. (* structs/atop_2_4.py:280 *)
Definition a2_4_NETStat : ctype := a1_26_NETStat. (* structs/atop_2_4.py:283 *)
(** structs/atop_2_4.py:286-305 class SStat. *)
Definition a2_4_SStat : ctype := TStruct "atop_2_4.SStat" [
    ("cpu", a2_4_CPUStat);
    ("mem", a2_4_MemStat);
    ("net", a2_4_NETStat);
    ("intf", a2_4_IntfStat);
    ("dsk", a2_4_DSKStat);
    ("nfs", a2_4_NFSStat);
    ("cfs", a2_4_ContStat);
    ("psi", a2_4_Pressure);
    ("gpu", a2_4_GPUStat);
    ("ifb", a2_4_IFBStat);
    ("www", a2_4_WWWStat)
  ] [].
Definition a2_4_GEN : ctype := a2_3_GEN. (* structs/atop_2_4.py:308 *)
Definition a2_4_CPU : ctype := a1_26_CPU. (* structs/atop_2_4.py:311 *)
Definition a2_4_DSK : ctype := a1_26_DSK. (* structs/atop_2_4.py:314 *)
Definition a2_4_MEM : ctype := a2_3_MEM. (* structs/atop_2_4.py:317 *)
Definition a2_4_NET : ctype := a2_3_NET. (* structs/atop_2_4.py:320 *)
(** structs/atop_2_4.py:323-342 class GPU. *)
Definition a2_4_GPU : ctype := TStruct "atop_2_4.GPU" [
    ("state", (TChar));
    ("cfuture", (TArr (TChar) 3));
    ("nrgpus", (TInt true 2));
    ("gpulist", (TInt true 4));
    ("gpubusy", (TInt true 4));
    ("membusy", (TInt true 4));
    ("timems", sh_count_t);
    ("memnow", sh_count_t);
    ("memcum", sh_count_t);
    ("sample", sh_count_t)
  ] [].
(** structs/atop_2_4.py:345-359 class TStat. *)
Definition a2_4_TStat : ctype := TStruct "atop_2_4.TStat" [
    ("gen", a2_4_GEN);
    ("cpu", a2_4_CPU);
    ("dsk", a2_4_DSK);
    ("mem", a2_4_MEM);
    ("net", a2_4_NET);
    ("gpu", a2_4_GPU)
  ] [].
(** structs/atop_2_4.py:362-370 class Header: fields inherited from the base class atop_2_3.Header. *)
Definition a2_4_Header_fields : list (string * ctype) := a2_3_Header_fields.
Definition a2_4_Header : ctype := TStruct "atop_2_4.Header" a2_4_Header_fields [].
(** structs/atop_2_4.py:362-370: the class attributes. *)
Definition a2_4_class : hclass := {|
  hc_version := "2.4";
  hc_header := a2_4_Header;
  hc_record := a2_4_Record;
  hc_sstat := a2_4_SStat;
  hc_tstat := a2_4_TStat;
  hc_cstat := None |}.
