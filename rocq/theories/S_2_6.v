(** * Struct tables of atoparser/structs/atop_2_6.py

    GENERATED by tools/gen_structs.py from the text of that file; do not edit. *)
From Coq Require Import List ZArith String.
From Verif Require Import PyBase CTypes S_shared S_1_26 S_2_3 S_2_4.
Import ListNotations.
Local Open Scope Z_scope.
Local Open Scope string_scope.

Definition a2_6_ACCTACTIVE : Z := 1. (* structs/atop_2_6.py:28 *)
Definition a2_6_IOSTAT : Z := 4. (* structs/atop_2_6.py:29 *)
Definition a2_6_NETATOP : Z := 16. (* structs/atop_2_6.py:30 *)
Definition a2_6_NETATOPD : Z := 32. (* structs/atop_2_6.py:31 *)
Definition a2_6_DOCKSTAT : Z := 64. (* structs/atop_2_6.py:32 *)
Definition a2_6_GPUSTAT : Z := 128. (* structs/atop_2_6.py:33 *)
Definition a2_6_PNAMLEN : Z := 15. (* structs/atop_2_6.py:36 *)
Definition a2_6_CMDLEN : Z := 255. (* structs/atop_2_6.py:37 *)
Definition a2_6_MAXCPU : Z := 2048. (* structs/atop_2_6.py:40 *)
Definition a2_6_MAXDSK : Z := 1024. (* structs/atop_2_6.py:41 *)
Definition a2_6_MAXLVM : Z := 2048. (* structs/atop_2_6.py:42 *)
Definition a2_6_MAXMDD : Z := 256. (* structs/atop_2_6.py:43 *)
Definition a2_6_MAXINTF : Z := 128. (* structs/atop_2_6.py:44 *)
Definition a2_6_MAXCONTAINER : Z := 128. (* structs/atop_2_6.py:45 *)
Definition a2_6_MAXNFSMOUNT : Z := 64. (* structs/atop_2_6.py:46 *)
Definition a2_6_MAXIBPORT : Z := 32. (* structs/atop_2_6.py:47 *)
Definition a2_6_MAXGPU : Z := 32. (* structs/atop_2_6.py:48 *)
Definition a2_6_MAXGPUBUS : Z := 12. (* structs/atop_2_6.py:49 *)
Definition a2_6_MAXGPUTYPE : Z := 12. (* structs/atop_2_6.py:50 *)
Definition a2_6_MAXDKNAM : Z := 32. (* structs/atop_2_6.py:51 *)
Definition a2_6_MAXIBNAME : Z := 12. (* structs/atop_2_6.py:52 *)
Definition a2_6_Record : ctype := a2_3_Record. (* structs/atop_2_6.py:55 *)
(** structs/atop_2_6.py:58-93 class MemStat. *)
Definition a2_6_MemStat : ctype := TStruct "atop_2_6.MemStat" [
    ("physmem", sh_count_t);
    ("freemem", sh_count_t);
    ("buffermem", sh_count_t);
    ("slabmem", sh_count_t);
    ("cachemem", sh_count_t);
    ("cachedrt", sh_count_t);
    ("totswap", sh_count_t);
    ("freeswap", sh_count_t);
    ("pgscans", sh_count_t);
    ("pgsteal", sh_count_t);
    ("allocstall", sh_count_t);
    ("swouts", sh_count_t);
    ("swins", sh_count_t);
    ("commitlim", sh_count_t);
    ("committed", sh_count_t);
    ("shmem", sh_count_t);
    ("shmrss", sh_count_t);
    ("shmswp", sh_count_t);
    ("slabreclaim", sh_count_t);
    ("tothugepage", sh_count_t);
    ("freehugepage", sh_count_t);
    ("hugepagesz", sh_count_t);
    ("vmwballoon", sh_count_t);
    ("zfsarcsize", sh_count_t);
    ("swapcached", sh_count_t);
    ("cfuture", (TArr sh_count_t 6))
  ] [].
Definition a2_6_FreqCnt : ctype := a1_26_FreqCnt. (* structs/atop_2_6.py:96 *)
(** structs/atop_2_6.py:99-122 class PerCPU. *)
Definition a2_6_PerCPU : ctype := TStruct "atop_2_6.PerCPU" [
    ("cpunr", (TInt true 4));
    ("stime", sh_count_t);
    ("utime", sh_count_t);
    ("ntime", sh_count_t);
    ("itime", sh_count_t);
    ("wtime", sh_count_t);
    ("Itime", sh_count_t);
    ("Stime", sh_count_t);
    ("steal", sh_count_t);
    ("guest", sh_count_t);
    ("freqcnt", a2_6_FreqCnt);
    ("instr", sh_count_t);
    ("cycle", sh_count_t);
    ("cfuture", (TArr sh_count_t 2))
  ] [].
(** structs/atop_2_6.py:125-145 class CPUStat. *)
Definition a2_6_CPUStat : ctype := TStruct "atop_2_6.CPUStat" [
    ("nrcpu", sh_count_t);
    ("devint", sh_count_t);
    ("csw", sh_count_t);
    ("nprocs", sh_count_t);
    ("lavg1", (TFloat));
    ("lavg5", (TFloat));
    ("lavg15", (TFloat));
    ("cfuture", (TArr sh_count_t 4));
    ("all", a2_6_PerCPU);
    ("cpu", (TArr a2_6_PerCPU a2_6_MAXCPU))
  ] [("cpu", "nrcpu")].
Definition a2_6_PerDSK : ctype := a2_3_PerDSK. (* structs/atop_2_6.py:148 *)
Definition a2_6_DSKStat : ctype := a2_3_DSKStat. (* structs/atop_2_6.py:151 *)
Definition a2_6_PerIntf : ctype := a2_3_PerIntf. (* structs/atop_2_6.py:154 *)
Definition a2_6_IntfStat : ctype := a2_3_IntfStat. (* structs/atop_2_6.py:157 *)
Definition a2_6_PerNFSMount : ctype := a2_3_PerNFSMount. (* structs/atop_2_6.py:160 *)
Definition a2_6_Server : ctype := a2_3_Server. (* structs/atop_2_6.py:163 *)
Definition a2_6_Client : ctype := a2_3_Client. (* structs/atop_2_6.py:166 *)
Definition a2_6_NFSMounts : ctype := a2_3_NFSMounts. (* structs/atop_2_6.py:169 *)
Definition a2_6_NFSStat : ctype := a2_3_NFSStat. (* structs/atop_2_6.py:172 *)
Definition a2_6_PSI : ctype := a2_4_PSI. (* structs/atop_2_6.py:175 *)
Definition a2_6_Pressure : ctype := a2_4_Pressure. (* structs/atop_2_6.py:178 *)
Definition a2_6_PerContainer : ctype := a2_3_PerContainer. (* structs/atop_2_6.py:181 *)
Definition a2_6_ContStat : ctype := a2_3_ContStat. (* structs/atop_2_6.py:184 *)
Definition a2_6_WWWStat : ctype := a1_26_WWWStat. (* structs/atop_2_6.py:187 *)
Definition a2_6_PerGPU : ctype := a2_4_PerGPU. (* structs/atop_2_6.py:190 *)
Definition a2_6_GPUStat : ctype := a2_4_GPUStat. (* structs/atop_2_6.py:193 *)
Definition a2_6_PerIFB : ctype := a2_4_PerIFB. (* structs/atop_2_6.py:196 *)
Definition a2_6_IFBStat : ctype := a2_4_IFBStat. (* structs/atop_2_6.py:199 *)
Definition a2_6_IPv4Stats : ctype := a1_26_IPv4Stats. (* structs/atop_2_6.py:202 *)
Definition a2_6_ICMPv4Stats : ctype := a1_26_ICMPv4Stats. (* structs/atop_2_6.py:205 *)
Definition a2_6_UDPv4Stats : ctype := a1_26_UDPv4Stats. (* structs/atop_2_6.py:208 *)
Definition a2_6_TCPStats : ctype := a1_26_TCPStats. (* structs/atop_2_6.py:211 *)
Definition a2_6_IPv6Stats : ctype := a1_26_IPv6Stats. (* structs/atop_2_6.py:214 *)
Definition a2_6_ICMPv6Stats : ctype := a1_26_ICMPv6Stats. (* structs/atop_2_6.py:217 *)
Definition a2_6_UDPv6Stats : ctype := a1_26_UDPv6Stats. (* structs/atop_2_6.py:220 *)
Definition a2_6_NETStat : ctype := a1_26_NETStat. (* structs/atop_2_6.py:223 *)
(** structs/atop_2_6.py:226-245 class SStat. *)
Definition a2_6_SStat : ctype := TStruct "atop_2_6.SStat" [
    ("cpu", a2_6_CPUStat);
    ("mem", a2_6_MemStat);
    ("net", a2_6_NETStat);
    ("intf", a2_6_IntfStat);
    ("dsk", a2_6_DSKStat);
    ("nfs", a2_6_NFSStat);
    ("cfs", a2_6_ContStat);
    ("psi", a2_6_Pressure);
    ("gpu", a2_6_GPUStat);
    ("ifb", a2_6_IFBStat);
    ("www", a2_6_WWWStat)
  ] [].
Definition a2_6_GEN : ctype := a2_3_GEN. (* structs/atop_2_6.py:248 *)
(** structs/atop_2_6.py:251-272 class CPU. *)
Definition a2_6_CPU : ctype := TStruct "atop_2_6.CPU" [
    ("utime", sh_count_t);
    ("stime", sh_count_t);
    ("nice", (TInt true 4));
    ("prio", (TInt true 4));
    ("rtprio", (TInt true 4));
    ("policy", (TInt true 4));
    ("curcpu", (TInt true 4));
    ("sleepavg", (TInt true 4));
    ("ifuture", (TArr (TInt true 4) 4));
    ("wchan", (TArr (TChar) 16));
    ("rundelay", sh_count_t);
    ("cfuture", sh_count_t)
  ] [].
Definition a2_6_DSK : ctype := a1_26_DSK. (* structs/atop_2_6.py:275 *)
(** structs/atop_2_6.py:278-301 class MEM. *)
Definition a2_6_MEM : ctype := TStruct "atop_2_6.MEM" [
    ("minflt", sh_count_t);
    ("majflt", sh_count_t);
    ("vexec", sh_count_t);
    ("vmem", sh_count_t);
    ("rmem", sh_count_t);
    ("pmem", sh_count_t);
    ("vgrow", sh_count_t);
    ("rgrow", sh_count_t);
    ("vdata", sh_count_t);
    ("vstack", sh_count_t);
    ("vlibs", sh_count_t);
    ("vswap", sh_count_t);
    ("vlock", sh_count_t);
    ("cfuture", (TArr sh_count_t 3))
  ] [].
Definition a2_6_NET : ctype := a2_3_NET. (* structs/atop_2_6.py:304 *)
Definition a2_6_GPU : ctype := a2_4_GPU. (* structs/atop_2_6.py:307 *)
(** structs/atop_2_6.py:310-324 class TStat. *)
Definition a2_6_TStat : ctype := TStruct "atop_2_6.TStat" [
    ("gen", a2_6_GEN);
    ("cpu", a2_6_CPU);
    ("dsk", a2_6_DSK);
    ("mem", a2_6_MEM);
    ("net", a2_6_NET);
    ("gpu", a2_6_GPU)
  ] [].
(** structs/atop_2_6.py:327-335 class Header: fields inherited from the base class atop_2_3.Header. *)
Definition a2_6_Header_fields : list (string * ctype) := a2_3_Header_fields.
Definition a2_6_Header : ctype := TStruct "atop_2_6.Header" a2_6_Header_fields [].
(** structs/atop_2_6.py:327-335: the class attributes. *)
Definition a2_6_class : hclass := {|
  hc_version := "2.6";
  hc_header := a2_6_Header;
  hc_record := a2_6_Record;
  hc_sstat := a2_6_SStat;
  hc_tstat := a2_6_TStat;
  hc_cstat := None |}.
