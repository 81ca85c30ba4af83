(** * Struct tables of atoparser/structs/atop_2_7.py

    GENERATED by tools/gen_structs.py from the text of that file; do not edit. *)
From Coq Require Import List ZArith String.
From Verif Require Import PyBase CTypes S_shared S_1_26 S_2_3 S_2_4 S_2_6.
Import ListNotations.
Local Open Scope Z_scope.
Local Open Scope string_scope.

Definition a2_7_ACCTACTIVE : Z := 1. (* structs/atop_2_7.py:29 *)
Definition a2_7_IOSTAT : Z := 4. (* structs/atop_2_7.py:30 *)
Definition a2_7_NETATOP : Z := 16. (* structs/atop_2_7.py:31 *)
Definition a2_7_NETATOPD : Z := 32. (* structs/atop_2_7.py:32 *)
Definition a2_7_DOCKSTAT : Z := 64. (* structs/atop_2_7.py:33 *)
Definition a2_7_GPUSTAT : Z := 128. (* structs/atop_2_7.py:34 *)
Definition a2_7_PNAMLEN : Z := 15. (* structs/atop_2_7.py:37 *)
Definition a2_7_CMDLEN : Z := 255. (* structs/atop_2_7.py:38 *)
Definition a2_7_MAXCPU : Z := 2048. (* structs/atop_2_7.py:41 *)
Definition a2_7_MAXDSK : Z := 1024. (* structs/atop_2_7.py:42 *)
Definition a2_7_MAXNUMA : Z := 1024. (* structs/atop_2_7.py:43 *)
Definition a2_7_MAXLVM : Z := 2048. (* structs/atop_2_7.py:44 *)
Definition a2_7_MAXMDD : Z := 256. (* structs/atop_2_7.py:45 *)
Definition a2_7_MAXINTF : Z := 128. (* structs/atop_2_7.py:46 *)
Definition a2_7_MAXCONTAINER : Z := 128. (* structs/atop_2_7.py:47 *)
Definition a2_7_MAXNFSMOUNT : Z := 64. (* structs/atop_2_7.py:48 *)
Definition a2_7_MAXIBPORT : Z := 32. (* structs/atop_2_7.py:49 *)
Definition a2_7_MAXGPU : Z := 32. (* structs/atop_2_7.py:50 *)
Definition a2_7_MAXGPUBUS : Z := 12. (* structs/atop_2_7.py:51 *)
Definition a2_7_MAXGPUTYPE : Z := 12. (* structs/atop_2_7.py:52 *)
Definition a2_7_MAXDKNAM : Z := 32. (* structs/atop_2_7.py:53 *)
Definition a2_7_MAXIBNAME : Z := 12. (* structs/atop_2_7.py:54 *)
Definition a2_7_Record : ctype := a2_3_Record. (* structs/atop_2_7.py:57 *)
(** structs/atop_2_7.py:60-103 class MemStat. *)
Definition a2_7_MemStat : ctype := TStruct "atop_2_7.MemStat" [
    ("physmem", sh_count_t);
    ("freemem", sh_count_t);
    ("buffermem", sh_count_t);
    ("slabmem", sh_count_t);
    ("cachemem", sh_count_t);
    ("cachedrt", sh_count_t);
    ("totswap", sh_count_t);
    ("freeswap", sh_count_t);
    ("pgscans", sh_count_t);
    ("pgsteal", sh_count_t);
    ("allocstall", sh_count_t);
    ("swouts", sh_count_t);
    ("swins", sh_count_t);
    ("commitlim", sh_count_t);
    ("committed", sh_count_t);
    ("shmem", sh_count_t);
    ("shmrss", sh_count_t);
    ("shmswp", sh_count_t);
    ("slabreclaim", sh_count_t);
    ("tothugepage", sh_count_t);
    ("freehugepage", sh_count_t);
    ("hugepagesz", sh_count_t);
    ("vmwballoon", sh_count_t);
    ("zfsarcsize", sh_count_t);
    ("swapcached", sh_count_t);
    ("ksmsharing", sh_count_t);
    ("ksmshared", sh_count_t);
    ("zswstored", sh_count_t);
    ("zswtotpool", sh_count_t);
    ("oomkills", sh_count_t);
    ("compactstall", sh_count_t);
    ("pgmigrate", sh_count_t);
    ("numamigrate", sh_count_t);
    ("cfuture", (TArr sh_count_t 9))
  ] [].
(** structs/atop_2_7.py:106-126 class MemPerNUMA. *)
Definition a2_7_MemPerNUMA : ctype := TStruct "atop_2_7.MemPerNUMA" [
    ("frag", (TFloat));
    ("totmem", sh_count_t);
    ("freemem", sh_count_t);
    ("filepage", sh_count_t);
    ("dirtymem", sh_count_t);
    ("slabmem", sh_count_t);
    ("slabreclaim", sh_count_t);
    ("active", sh_count_t);
    ("inactive", sh_count_t);
    ("shmem", sh_count_t);
    ("tothp", sh_count_t)
  ] [].
(** structs/atop_2_7.py:129-141 class MemNUMA. *)
Definition a2_7_MemNUMA : ctype := TStruct "atop_2_7.MemNUMA" [
    ("nrnuma", sh_count_t);
    ("numa", (TArr a2_7_MemPerNUMA a2_7_MAXNUMA))
  ] [("numa", "nrnuma")].
(** structs/atop_2_7.py:144-163 class CPUPerNUMA. *)
Definition a2_7_CPUPerNUMA : ctype := TStruct "atop_2_7.CPUPerNUMA" [
    ("nrcpu", sh_count_t);
    ("stime", sh_count_t);
    ("utime", sh_count_t);
    ("ntime", sh_count_t);
    ("itime", sh_count_t);
    ("wtime", sh_count_t);
    ("Itime", sh_count_t);
    ("Stime", sh_count_t);
    ("steal", sh_count_t);
    ("guest", sh_count_t)
  ] [].
(** structs/atop_2_7.py:166-178 class CPUNUMA. *)
Definition a2_7_CPUNUMA : ctype := TStruct "atop_2_7.CPUNUMA" [
    ("nrnuma", sh_count_t);
    ("numa", (TArr a2_7_CPUPerNUMA a2_7_MAXNUMA))
  ] [("numa", "nrnuma")].
Definition a2_7_FreqCnt : ctype := a1_26_FreqCnt. (* structs/atop_2_7.py:181 *)
(** structs/atop_2_7.py:184-207 class PerCPU. *)
Definition a2_7_PerCPU : ctype := TStruct "atop_2_7.PerCPU" [
    ("cpunr", (TInt true 4));
    ("stime", sh_count_t);
    ("utime", sh_count_t);
    ("ntime", sh_count_t);
    ("itime", sh_count_t);
    ("wtime", sh_count_t);
    ("Itime", sh_count_t);
    ("Stime", sh_count_t);
    ("steal", sh_count_t);
    ("guest", sh_count_t);
    ("freqcnt", a2_7_FreqCnt);
    ("instr", sh_count_t);
    ("cycle", sh_count_t);
    ("cfuture", (TArr sh_count_t 6))
  ] [].
(** structs/atop_2_7.py:210-230 class CPUStat. *)
Definition a2_7_CPUStat : ctype := TStruct "atop_2_7.CPUStat" [
    ("nrcpu", sh_count_t);
    ("devint", sh_count_t);
    ("csw", sh_count_t);
    ("nprocs", sh_count_t);
    ("lavg1", (TFloat));
    ("lavg5", (TFloat));
    ("lavg15", (TFloat));
    ("cfuture", (TArr sh_count_t 4));
    ("all", a2_7_PerCPU);
    ("cpu", (TArr a2_7_PerCPU a2_7_MAXCPU))
  ] [("cpu", "nrcpu")].
(** structs/atop_2_7.py:233-252 class PerDSK. *)
Definition a2_7_PerDSK : ctype := TStruct "atop_2_7.PerDSK" [
    ("name", (TArr (TChar) a2_7_MAXDKNAM));
    ("nread", sh_count_t);
    ("nrsect", sh_count_t);
    ("nwrite", sh_count_t);
    ("nwsect", sh_count_t);
    ("io_ms", sh_count_t);
    ("avque", sh_count_t);
    ("ndisc", sh_count_t);
    ("ndsect", sh_count_t);
    ("cfuture", (TArr sh_count_t 2))
  ] [].
(** structs/atop_2_7.py:255-275 class DSKStat. *)
Definition a2_7_DSKStat : ctype := TStruct "atop_2_7.DSKStat" [
    ("ndsk", (TInt true 4));
    ("nmdd", (TInt true 4));
    ("nlvm", (TInt true 4));
    ("dsk", (TArr a2_7_PerDSK a2_7_MAXDSK));
    ("mdd", (TArr a2_7_PerDSK a2_7_MAXMDD));
    ("lvm", (TArr a2_7_PerDSK a2_7_MAXLVM))
  ] [("dsk", "ndsk"); ("mdd", "nmdd"); ("lvm", "nlvm")].
Definition a2_7_PerIntf : ctype := a2_3_PerIntf. (* structs/atop_2_7.py:278 *)
Definition a2_7_IntfStat : ctype := a2_3_IntfStat. (* structs/atop_2_7.py:281 *)
Definition a2_7_PerNFSMount : ctype := a2_3_PerNFSMount. (* structs/atop_2_7.py:284 *)
Definition a2_7_Server : ctype := a2_3_Server. (* structs/atop_2_7.py:287 *)
Definition a2_7_Client : ctype := a2_3_Client. (* structs/atop_2_7.py:290 *)
Definition a2_7_NFSMounts : ctype := a2_3_NFSMounts. (* structs/atop_2_7.py:293 *)
Definition a2_7_NFSStat : ctype := a2_3_NFSStat. (* structs/atop_2_7.py:296 *)
Definition a2_7_PSI : ctype := a2_4_PSI. (* structs/atop_2_7.py:299 *)
Definition a2_7_Pressure : ctype := a2_4_Pressure. (* structs/atop_2_7.py:302 *)
Definition a2_7_PerContainer : ctype := a2_3_PerContainer. (* structs/atop_2_7.py:305 *)
Definition a2_7_ContStat : ctype := a2_3_ContStat. (* structs/atop_2_7.py:308 *)
Definition a2_7_WWWStat : ctype := a1_26_WWWStat. (* structs/atop_2_7.py:311 *)
Definition a2_7_PerGPU : ctype := a2_4_PerGPU. (* structs/atop_2_7.py:314 *)
Definition a2_7_GPUStat : ctype := a2_4_GPUStat. (* structs/atop_2_7.py:317 *)
Definition a2_7_PerIFB : ctype := a2_4_PerIFB. (* structs/atop_2_7.py:320 *)
Definition a2_7_IFBStat : ctype := a2_4_IFBStat. (* structs/atop_2_7.py:323 *)
Definition a2_7_IPv4Stats : ctype := a1_26_IPv4Stats. (* structs/atop_2_7.py:326 *)
Definition a2_7_ICMPv4Stats : ctype := a1_26_ICMPv4Stats. (* structs/atop_2_7.py:329 *)
Definition a2_7_UDPv4Stats : ctype := a1_26_UDPv4Stats. (* structs/atop_2_7.py:332 *)
Definition a2_7_TCPStats : ctype := a1_26_TCPStats. (* structs/atop_2_7.py:335 *)
Definition a2_7_IPv6Stats : ctype := a1_26_IPv6Stats. (* structs/atop_2_7.py:338 *)
Definition a2_7_ICMPv6Stats : ctype := a1_26_ICMPv6Stats. (* structs/atop_2_7.py:341 *)
Definition a2_7_UDPv6Stats : ctype := a1_26_UDPv6Stats. (* structs/atop_2_7.py:344 *)
Definition a2_7_NETStat : ctype := a1_26_NETStat. (* structs/atop_2_7.py:347 *)
(** structs/atop_2_7.py:350-371 class SStat. *)
Definition a2_7_SStat : ctype := TStruct "atop_2_7.SStat" [
    ("cpu", a2_7_CPUStat);
    ("mem", a2_7_MemStat);
    ("net", a2_7_NETStat);
    ("intf", a2_7_IntfStat);
    ("memnuma", a2_7_MemNUMA);
    ("cpunuma", a2_7_CPUNUMA);
    ("dsk", a2_7_DSKStat);
    ("nfs", a2_7_NFSStat);
    ("cfs", a2_7_ContStat);
    ("psi", a2_7_Pressure);
    ("gpu", a2_7_GPUStat);
    ("ifb", a2_7_IFBStat);
    ("www", a2_7_WWWStat)
  ] [].
Definition a2_7_GEN : ctype := a2_3_GEN. (* structs/atop_2_7.py:374 *)
Definition a2_7_CPU : ctype := a2_6_CPU. (* structs/atop_2_7.py:377 *)
Definition a2_7_DSK : ctype := a1_26_DSK. (* structs/atop_2_7.py:380 *)
Definition a2_7_MEM : ctype := a2_6_MEM. (* structs/atop_2_7.py:383 *)
Definition a2_7_NET : ctype := a2_3_NET. (* structs/atop_2_7.py:386 *)
Definition a2_7_GPU : ctype := a2_4_GPU. (* structs/atop_2_7.py:389 *)
Definition a2_7_TStat : ctype := a2_6_TStat. (* structs/atop_2_7.py:392 *)
(** structs/atop_2_7.py:395-403 class Header: fields inherited from the base class atop_2_3.Header. *)
Definition a2_7_Header_fields : list (string * ctype) := a2_3_Header_fields.
Definition a2_7_Header : ctype := TStruct "atop_2_7.Header" a2_7_Header_fields [].
(** structs/atop_2_7.py:395-403: the class attributes. *)
Definition a2_7_class : hclass := {|
  hc_version := "2.7";
  hc_header := a2_7_Header;
  hc_record := a2_7_Record;
  hc_sstat := a2_7_SStat;
  hc_tstat := a2_7_TStat;
  hc_cstat := None |}.
