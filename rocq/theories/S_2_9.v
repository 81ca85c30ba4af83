(** * Struct tables of atoparser/structs/atop_2_9.py

    GENERATED by tools/gen_structs.py from the text of that file; do not edit. *)
From Coq Require Import List ZArith String.
From Verif Require Import PyBase CTypes S_shared S_1_26 S_2_3 S_2_4 S_2_7 S_2_8.
Import ListNotations.
Local Open Scope Z_scope.
Local Open Scope string_scope.

Definition a2_9_ACCTACTIVE : Z := 1. (* structs/atop_2_9.py:30 *)
Definition a2_9_IOSTAT : Z := 4. (* structs/atop_2_9.py:31 *)
Definition a2_9_NETATOP : Z := 16. (* structs/atop_2_9.py:32 *)
Definition a2_9_NETATOPD : Z := 32. (* structs/atop_2_9.py:33 *)
Definition a2_9_DOCKSTAT : Z := 64. (* structs/atop_2_9.py:34 *)
Definition a2_9_GPUSTAT : Z := 128. (* structs/atop_2_9.py:35 *)
Definition a2_9_CGROUPV2 : Z := 256. (* structs/atop_2_9.py:36 *)
Definition a2_9_PNAMLEN : Z := 15. (* structs/atop_2_9.py:39 *)
Definition a2_9_CMDLEN : Z := 255. (* structs/atop_2_9.py:40 *)
Definition a2_9_CGRLEN : Z := 64. (* structs/atop_2_9.py:41 *)
Definition a2_9_MAXCPU : Z := 2048. (* structs/atop_2_9.py:44 *)
Definition a2_9_MAXDSK : Z := 1024. (* structs/atop_2_9.py:45 *)
Definition a2_9_MAXNUMA : Z := 1024. (* structs/atop_2_9.py:46 *)
Definition a2_9_MAXLVM : Z := 2048. (* structs/atop_2_9.py:47 *)
Definition a2_9_MAXMDD : Z := 256. (* structs/atop_2_9.py:48 *)
Definition a2_9_MAXINTF : Z := 128. (* structs/atop_2_9.py:49 *)
Definition a2_9_MAXCONTAINER : Z := 128. (* structs/atop_2_9.py:50 *)
Definition a2_9_MAXNFSMOUNT : Z := 64. (* structs/atop_2_9.py:51 *)
Definition a2_9_MAXIBPORT : Z := 32. (* structs/atop_2_9.py:52 *)
Definition a2_9_MAXGPU : Z := 32. (* structs/atop_2_9.py:53 *)
Definition a2_9_MAXGPUBUS : Z := 12. (* structs/atop_2_9.py:54 *)
Definition a2_9_MAXGPUTYPE : Z := 12. (* structs/atop_2_9.py:55 *)
Definition a2_9_MAXLLC : Z := 256. (* structs/atop_2_9.py:56 *)
Definition a2_9_MAXDKNAM : Z := 32. (* structs/atop_2_9.py:57 *)
Definition a2_9_MAXIBNAME : Z := 12. (* structs/atop_2_9.py:58 *)
Definition a2_9_Record : ctype := a2_8_Record. (* structs/atop_2_9.py:61 *)
Definition a2_9_MemStat : ctype := a2_8_MemStat. (* structs/atop_2_9.py:64 *)
Definition a2_9_MemPerNUMA : ctype := a2_8_MemPerNUMA. (* structs/atop_2_9.py:67 *)
Definition a2_9_MemNUMA : ctype := a2_8_MemNUMA. (* structs/atop_2_9.py:70 *)
Definition a2_9_CPUPerNUMA : ctype := a2_8_CPUPerNUMA. (* structs/atop_2_9.py:73 *)
Definition a2_9_CPUNUMA : ctype := a2_8_CPUNUMA. (* structs/atop_2_9.py:76 *)
Definition a2_9_FreqCnt : ctype := a1_26_FreqCnt. (* structs/atop_2_9.py:79 *)
Definition a2_9_PerCPU : ctype := a2_7_PerCPU. (* structs/atop_2_9.py:82 *)
Definition a2_9_CPUStat : ctype := a2_7_CPUStat. (* structs/atop_2_9.py:85 *)
Definition a2_9_PerDSK : ctype := a2_8_PerDSK. (* structs/atop_2_9.py:88 *)
Definition a2_9_DSKStat : ctype := a2_8_DSKStat. (* structs/atop_2_9.py:91 *)
Definition a2_9_PerIntf : ctype := a2_3_PerIntf. (* structs/atop_2_9.py:94 *)
Definition a2_9_IntfStat : ctype := a2_3_IntfStat. (* structs/atop_2_9.py:97 *)
Definition a2_9_PerNFSMount : ctype := a2_3_PerNFSMount. (* structs/atop_2_9.py:100 *)
Definition a2_9_Server : ctype := a2_3_Server. (* structs/atop_2_9.py:103 *)
Definition a2_9_Client : ctype := a2_3_Client. (* structs/atop_2_9.py:106 *)
Definition a2_9_NFSMounts : ctype := a2_3_NFSMounts. (* structs/atop_2_9.py:109 *)
Definition a2_9_NFSStat : ctype := a2_3_NFSStat. (* structs/atop_2_9.py:112 *)
Definition a2_9_PSI : ctype := a2_4_PSI. (* structs/atop_2_9.py:115 *)
Definition a2_9_Pressure : ctype := a2_4_Pressure. (* structs/atop_2_9.py:118 *)
Definition a2_9_PerContainer : ctype := a2_3_PerContainer. (* structs/atop_2_9.py:121 *)
Definition a2_9_ContStat : ctype := a2_3_ContStat. (* structs/atop_2_9.py:124 *)
Definition a2_9_WWWStat : ctype := a1_26_WWWStat. (* structs/atop_2_9.py:127 *)
Definition a2_9_PerGPU : ctype := a2_4_PerGPU. (* structs/atop_2_9.py:130 *)
Definition a2_9_GPUStat : ctype := a2_4_GPUStat. (* structs/atop_2_9.py:133 *)
Definition a2_9_PerIFB : ctype := a2_4_PerIFB. (* structs/atop_2_9.py:136 *)
Definition a2_9_IFBStat : ctype := a2_4_IFBStat. (* structs/atop_2_9.py:139 *)
Definition a2_9_PerLLC : ctype := a2_8_PerLLC. (* structs/atop_2_9.py:142 *)
Definition a2_9_LLCStat : ctype := a2_8_LLCStat. (* structs/atop_2_9.py:145 *)
Definition a2_9_IPv4Stats : ctype := a1_26_IPv4Stats. (* structs/atop_2_9.py:148 *)
Definition a2_9_ICMPv4Stats : ctype := a2_8_ICMPv4Stats. (* structs/atop_2_9.py:151 *)
Definition a2_9_UDPv4Stats : ctype := a1_26_UDPv4Stats. (* structs/atop_2_9.py:154 *)
Definition a2_9_TCPStats : ctype := a1_26_TCPStats. (* structs/atop_2_9.py:157 *)
Definition a2_9_IPv6Stats : ctype := a1_26_IPv6Stats. (* structs/atop_2_9.py:160 *)
Definition a2_9_ICMPv6Stats : ctype := a1_26_ICMPv6Stats. (* structs/atop_2_9.py:163 *)
Definition a2_9_UDPv6Stats : ctype := a1_26_UDPv6Stats. (* structs/atop_2_9.py:166 *)
Definition a2_9_NETStat : ctype := a1_26_NETStat. (* structs/atop_2_9.py:169 *)
Definition a2_9_SStat : ctype := a2_8_SStat. (* structs/atop_2_9.py:172 *)
Definition a2_9_GEN : ctype := a2_8_GEN. (* structs/atop_2_9.py:175 *)
(** structs/atop_2_9.py:178-205 class CPU. *)
Definition a2_9_CPU : ctype := TStruct "atop_2_9.CPU" [
    ("utime", sh_count_t);
    ("stime", sh_count_t);
    ("nice", (TInt true 4));
    ("prio", (TInt true 4));
    ("rtprio", (TInt true 4));
    ("policy", (TInt true 4));
    ("curcpu", (TInt true 4));
    ("sleepavg", (TInt true 4));
    ("cgcpuweight", (TInt true 4));
    ("cgcpumax", (TInt true 4));
    ("cgcpumaxr", (TInt true 4));
    ("ifuture", (TArr (TInt true 4) 3));
    ("wchan", (TArr (TChar) 16));
    ("rundelay", sh_count_t);
    ("blkdelay", sh_count_t);
    ("nvcsw", sh_count_t);
    ("nivcsw", sh_count_t);
    ("cfuture", (TArr sh_count_t 1))
  ] [].
Definition a2_9_DSK : ctype := a1_26_DSK. (* structs/atop_2_9.py:208 *)
Definition a2_9_MEM : ctype := a2_8_MEM. (* structs/atop_2_9.py:211 *)
Definition a2_9_NET : ctype := a2_3_NET. (* structs/atop_2_9.py:214 *)
Definition a2_9_GPU : ctype := a2_4_GPU. (* structs/atop_2_9.py:217 *)
(** structs/atop_2_9.py:220-234 class TStat. *)
Definition a2_9_TStat : ctype := TStruct "atop_2_9.TStat" [
    ("gen", a2_9_GEN);
    ("cpu", a2_9_CPU);
    ("dsk", a2_9_DSK);
    ("mem", a2_9_MEM);
    ("net", a2_9_NET);
    ("gpu", a2_9_GPU)
  ] [].
(** structs/atop_2_9.py:237-245 class Header: fields inherited from the base class atop_2_8.Header. *)
Definition a2_9_Header_fields : list (string * ctype) := a2_8_Header_fields.
Definition a2_9_Header : ctype := TStruct "atop_2_9.Header" a2_9_Header_fields [].
(** structs/atop_2_9.py:237-245: the class attributes. *)
Definition a2_9_class : hclass := {|
  hc_version := "2.9";
  hc_header := a2_9_Header;
  hc_record := a2_9_Record;
  hc_sstat := a2_9_SStat;
  hc_tstat := a2_9_TStat;
  hc_cstat := None |}.
