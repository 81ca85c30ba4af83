(** * Struct tables of atoparser/structs/atop_2_10.py

    GENERATED by tools/gen_structs.py from the text of that file; do not edit. *)
From Coq Require Import List ZArith String.
From Verif Require Import PyBase CTypes S_shared S_1_26 S_2_3 S_2_4 S_2_7 S_2_8.
Import ListNotations.
Local Open Scope Z_scope.
Local Open Scope string_scope.

Definition a2_10_ACCTACTIVE : Z := 1. (* structs/atop_2_10.py:31 *)
Definition a2_10_IOSTAT : Z := 4. (* structs/atop_2_10.py:32 *)
Definition a2_10_NETATOP : Z := 16. (* structs/atop_2_10.py:33 *)
Definition a2_10_NETATOPD : Z := 32. (* structs/atop_2_10.py:34 *)
Definition a2_10_CONTAINERSTAT : Z := 64. (* structs/atop_2_10.py:35 *)
Definition a2_10_GPUSTAT : Z := 128. (* structs/atop_2_10.py:36 *)
Definition a2_10_CGROUPV2 : Z := 256. (* structs/atop_2_10.py:37 *)
Definition a2_10_NETATOPBPF : Z := 4096. (* structs/atop_2_10.py:38 *)
Definition a2_10_PNAMLEN : Z := 15. (* structs/atop_2_10.py:41 *)
Definition a2_10_CMDLEN : Z := 255. (* structs/atop_2_10.py:42 *)
Definition a2_10_CGRLEN : Z := 64. (* structs/atop_2_10.py:43 *)
Definition a2_10_UTSLEN : Z := 15. (* structs/atop_2_10.py:44 *)
Definition a2_10_MAXCPU : Z := 2048. (* structs/atop_2_10.py:47 *)
Definition a2_10_MAXDSK : Z := 1024. (* structs/atop_2_10.py:48 *)
Definition a2_10_MAXNUMA : Z := 1024. (* structs/atop_2_10.py:49 *)
Definition a2_10_MAXLVM : Z := 2048. (* structs/atop_2_10.py:50 *)
Definition a2_10_MAXMDD : Z := 256. (* structs/atop_2_10.py:51 *)
Definition a2_10_MAXINTF : Z := 128. (* structs/atop_2_10.py:52 *)
Definition a2_10_MAXCONTAINER : Z := 128. (* structs/atop_2_10.py:53 *)
Definition a2_10_MAXNFSMOUNT : Z := 64. (* structs/atop_2_10.py:54 *)
Definition a2_10_MAXIBPORT : Z := 32. (* structs/atop_2_10.py:55 *)
Definition a2_10_MAXGPU : Z := 32. (* structs/atop_2_10.py:56 *)
Definition a2_10_MAXGPUBUS : Z := 12. (* structs/atop_2_10.py:57 *)
Definition a2_10_MAXGPUTYPE : Z := 12. (* structs/atop_2_10.py:58 *)
Definition a2_10_MAXLLC : Z := 256. (* structs/atop_2_10.py:59 *)
Definition a2_10_MAXDKNAM : Z := 32. (* structs/atop_2_10.py:60 *)
Definition a2_10_MAXIBNAME : Z := 12. (* structs/atop_2_10.py:61 *)
(** structs/atop_2_10.py:64-90 class Record. *)
Definition a2_10_Record : ctype := TStruct "atop_2_10.Record" [
    ("curtime", sh_time_t);
    ("flags", (TInt false 2));
    ("sfuture", (TArr (TInt false 2) 3));
    ("scomplen", (TInt false 4));
    ("pcomplen", (TInt false 4));
    ("interval", (TInt false 4));
    ("ndeviat", (TInt false 4));
    ("nactproc", (TInt false 4));
    ("ntask", (TInt false 4));
    ("totproc", (TInt false 4));
    ("totrun", (TInt false 4));
    ("totslpi", (TInt false 4));
    ("totslpu", (TInt false 4));
    ("totzomb", (TInt false 4));
    ("nexit", (TInt false 4));
    ("noverflow", (TInt false 4));
    ("totidle", (TInt false 4));
    ("ifuture", (TArr (TInt false 4) 5))
  ] [].
(** structs/atop_2_10.py:93-148 class MemStat. *)
Definition a2_10_MemStat : ctype := TStruct "atop_2_10.MemStat" [
    ("physmem", sh_count_t);
    ("freemem", sh_count_t);
    ("buffermem", sh_count_t);
    ("slabmem", sh_count_t);
    ("cachemem", sh_count_t);
    ("cachedrt", sh_count_t);
    ("totswap", sh_count_t);
    ("freeswap", sh_count_t);
    ("pgscans", sh_count_t);
    ("pgsteal", sh_count_t);
    ("allocstall", sh_count_t);
    ("swouts", sh_count_t);
    ("swins", sh_count_t);
    ("tcpsock", sh_count_t);
    ("udpsock", sh_count_t);
    ("commitlim", sh_count_t);
    ("committed", sh_count_t);
    ("shmem", sh_count_t);
    ("shmrss", sh_count_t);
    ("shmswp", sh_count_t);
    ("slabreclaim", sh_count_t);
    ("stothugepage", sh_count_t);
    ("sfreehugepage", sh_count_t);
    ("shugepagesz", sh_count_t);
    ("vmwballoon", sh_count_t);
    ("zfsarcsize", sh_count_t);
    ("swapcached", sh_count_t);
    ("ksmsharing", sh_count_t);
    ("ksmshared", sh_count_t);
    ("zswapped", sh_count_t);
    ("zswap", sh_count_t);
    ("oomkills", sh_count_t);
    ("compactstall", sh_count_t);
    ("pgmigrate", sh_count_t);
    ("numamigrate", sh_count_t);
    ("pgouts", sh_count_t);
    ("pgins", sh_count_t);
    ("pagetables", sh_count_t);
    ("zswouts", sh_count_t);
    ("zswins", sh_count_t);
    ("ltothugepage", sh_count_t);
    ("lfreehugepage", sh_count_t);
    ("lhugepagesz", sh_count_t);
    ("availablemem", sh_count_t);
    ("anonhugepage", sh_count_t);
    ("cfuture", (TArr sh_count_t 4))
  ] [].
(** structs/atop_2_10.py:151-173 class MemPerNUMA. *)
Definition a2_10_MemPerNUMA : ctype := TStruct "atop_2_10.MemPerNUMA" [
    ("numanr", (TInt true 4));
    ("frag", (TFloat));
    ("totmem", sh_count_t);
    ("freemem", sh_count_t);
    ("filepage", sh_count_t);
    ("dirtymem", sh_count_t);
    ("slabmem", sh_count_t);
    ("slabreclaim", sh_count_t);
    ("active", sh_count_t);
    ("inactive", sh_count_t);
    ("shmem", sh_count_t);
    ("tothp", sh_count_t);
    ("freehp", sh_count_t)
  ] [].
(** structs/atop_2_10.py:176-188 class MemNUMA. *)
Definition a2_10_MemNUMA : ctype := TStruct "atop_2_10.MemNUMA" [
    ("nrnuma", sh_count_t);
    ("numa", (TArr a2_10_MemPerNUMA a2_10_MAXNUMA))
  ] [("numa", "nrnuma")].
Definition a2_10_CPUPerNUMA : ctype := a2_8_CPUPerNUMA. (* structs/atop_2_10.py:191 *)
Definition a2_10_CPUNUMA : ctype := a2_8_CPUNUMA. (* structs/atop_2_10.py:194 *)
Definition a2_10_FreqCnt : ctype := a1_26_FreqCnt. (* structs/atop_2_10.py:197 *)
Definition a2_10_PerCPU : ctype := a2_7_PerCPU. (* structs/atop_2_10.py:200 *)
Definition a2_10_CPUStat : ctype := a2_7_CPUStat. (* structs/atop_2_10.py:203 *)
Definition a2_10_PerDSK : ctype := a2_8_PerDSK. (* structs/atop_2_10.py:206 *)
Definition a2_10_DSKStat : ctype := a2_8_DSKStat. (* structs/atop_2_10.py:209 *)
Definition a2_10_PerIntf : ctype := a2_3_PerIntf. (* structs/atop_2_10.py:212 *)
Definition a2_10_IntfStat : ctype := a2_3_IntfStat. (* structs/atop_2_10.py:215 *)
Definition a2_10_PerNFSMount : ctype := a2_3_PerNFSMount. (* structs/atop_2_10.py:218 *)
Definition a2_10_Server : ctype := a2_3_Server. (* structs/atop_2_10.py:221 *)
Definition a2_10_Client : ctype := a2_3_Client. (* structs/atop_2_10.py:224 *)
Definition a2_10_NFSMounts : ctype := a2_3_NFSMounts. (* structs/atop_2_10.py:227 *)
Definition a2_10_NFSStat : ctype := a2_3_NFSStat. (* structs/atop_2_10.py:230 *)
Definition a2_10_PSI : ctype := a2_4_PSI. (* structs/atop_2_10.py:233 *)
Definition a2_10_Pressure : ctype := a2_4_Pressure. (* structs/atop_2_10.py:236 *)
Definition a2_10_PerContainer : ctype := a2_3_PerContainer. (* structs/atop_2_10.py:239 *)
Definition a2_10_ContStat : ctype := a2_3_ContStat. (* structs/atop_2_10.py:242 *)
Definition a2_10_WWWStat : ctype := a1_26_WWWStat. (* structs/atop_2_10.py:245 *)
Definition a2_10_PerGPU : ctype := a2_4_PerGPU. (* structs/atop_2_10.py:248 *)
Definition a2_10_GPUStat : ctype := a2_4_GPUStat. (* structs/atop_2_10.py:251 *)
Definition a2_10_PerIFB : ctype := a2_4_PerIFB. (* structs/atop_2_10.py:254 *)
Definition a2_10_IFBStat : ctype := a2_4_IFBStat. (* structs/atop_2_10.py:257 *)
Definition a2_10_PerLLC : ctype := a2_8_PerLLC. (* structs/atop_2_10.py:260 *)
Definition a2_10_LLCStat : ctype := a2_8_LLCStat. (* structs/atop_2_10.py:263 *)
Definition a2_10_IPv4Stats : ctype := a1_26_IPv4Stats. (* structs/atop_2_10.py:266 *)
Definition a2_10_ICMPv4Stats : ctype := a2_8_ICMPv4Stats. (* structs/atop_2_10.py:269 *)
Definition a2_10_UDPv4Stats : ctype := a1_26_UDPv4Stats. (* structs/atop_2_10.py:272 *)
(** structs/atop_2_10.py:275-299 class TCPStats. *)
Definition a2_10_TCPStats : ctype := TStruct "atop_2_10.TCPStats" [
    ("RtoAlgorithm", sh_count_t);
    ("RtoMin", sh_count_t);
    ("RtoMax", sh_count_t);
    ("MaxConn", sh_count_t);
    ("ActiveOpens", sh_count_t);
    ("PassiveOpens", sh_count_t);
    ("AttemptFails", sh_count_t);
    ("EstabResets", sh_count_t);
    ("CurrEstab", sh_count_t);
    ("InSegs", sh_count_t);
    ("OutSegs", sh_count_t);
    ("RetransSegs", sh_count_t);
    ("InErrs", sh_count_t);
    ("OutRsts", sh_count_t);
    ("InCsumErrors", sh_count_t)
  ] [].
Definition a2_10_IPv6Stats : ctype := a1_26_IPv6Stats. (* structs/atop_2_10.py:302 *)
Definition a2_10_ICMPv6Stats : ctype := a1_26_ICMPv6Stats. (* structs/atop_2_10.py:305 *)
Definition a2_10_UDPv6Stats : ctype := a1_26_UDPv6Stats. (* structs/atop_2_10.py:308 *)
(** structs/atop_2_10.py:311-327 class NETStat. *)
Definition a2_10_NETStat : ctype := TStruct "atop_2_10.NETStat" [
    ("ipv4", a2_10_IPv4Stats);
    ("icmpv4", a2_10_ICMPv4Stats);
    ("udpv4", a2_10_UDPv4Stats);
    ("ipv6", a2_10_IPv6Stats);
    ("icmpv6", a2_10_ICMPv6Stats);
    ("udpv6", a2_10_UDPv6Stats);
    ("tcp", a2_10_TCPStats)
  ] [].
(** structs/atop_2_10.py:330-352 class SStat. *)
Definition a2_10_SStat : ctype := TStruct "atop_2_10.SStat" [
    ("cpu", a2_10_CPUStat);
    ("mem", a2_10_MemStat);
    ("net", a2_10_NETStat);
    ("intf", a2_10_IntfStat);
    ("memnuma", a2_10_MemNUMA);
    ("cpunuma", a2_10_CPUNUMA);
    ("dsk", a2_10_DSKStat);
    ("nfs", a2_10_NFSStat);
    ("cfs", a2_10_ContStat);
    ("psi", a2_10_Pressure);
    ("gpu", a2_10_GPUStat);
    ("ifb", a2_10_IFBStat);
    ("llc", a2_10_LLCStat);
    ("www", a2_10_WWWStat)
  ] [].
(** structs/atop_2_10.py:355-392 class GEN. *)
Definition a2_10_GEN : ctype := TStruct "atop_2_10.GEN" [
    ("tgid", (TInt true 4));
    ("pid", (TInt true 4));
    ("ppid", (TInt true 4));
    ("ruid", (TInt true 4));
    ("euid", (TInt true 4));
    ("suid", (TInt true 4));
    ("fsuid", (TInt true 4));
    ("rgid", (TInt true 4));
    ("egid", (TInt true 4));
    ("sgid", (TInt true 4));
    ("fsgid", (TInt true 4));
    ("nthr", (TInt true 4));
    ("name", (TArr (TChar) (a2_10_PNAMLEN + 1)));
    ("isproc", (TChar));
    ("state", (TChar));
    ("excode", (TInt true 4));
    ("btime", sh_time_t);
    ("elaps", sh_time_t);
    ("cmdline", (TArr (TChar) (a2_10_CMDLEN + 1)));
    ("nthrslpi", (TInt true 4));
    ("nthrslpu", (TInt true 4));
    ("nthrrun", (TInt true 4));
    ("nthridle", (TInt true 4));
    ("ctid", (TInt true 4));
    ("vpid", (TInt true 4));
    ("wasinactive", (TInt true 4));
    ("utsname", (TArr (TChar) (a2_10_UTSLEN + 1)));
    ("cgpath", (TArr (TChar) a2_10_CGRLEN))
  ] [].
(** structs/atop_2_10.py:395-422 class CPU. *)
Definition a2_10_CPU : ctype := TStruct "atop_2_10.CPU" [
    ("utime", sh_count_t);
    ("stime", sh_count_t);
    ("nice", (TInt true 4));
    ("prio", (TInt true 4));
    ("rtprio", (TInt true 4));
    ("policy", (TInt true 4));
    ("curcpu", (TInt true 4));
    ("sleepavg", (TInt true 4));
    ("cgcpuweight", (TInt true 4));
    ("cgcpumax", (TInt true 4));
    ("cgcpumaxr", (TInt true 4));
    ("ifuture", (TArr (TInt true 4) 3));
    ("wchan", (TArr (TChar) 16));
    ("rundelay", sh_count_t);
    ("blkdelay", sh_count_t);
    ("nvcsw", sh_count_t);
    ("nivcsw", sh_count_t);
    ("cfuture", (TArr sh_count_t 3))
  ] [].
Definition a2_10_DSK : ctype := a1_26_DSK. (* structs/atop_2_10.py:425 *)
Definition a2_10_MEM : ctype := a2_8_MEM. (* structs/atop_2_10.py:428 *)
Definition a2_10_NET : ctype := a2_3_NET. (* structs/atop_2_10.py:431 *)
Definition a2_10_GPU : ctype := a2_4_GPU. (* structs/atop_2_10.py:434 *)
(** structs/atop_2_10.py:437-451 class TStat. *)
Definition a2_10_TStat : ctype := TStruct "atop_2_10.TStat" [
    ("gen", a2_10_GEN);
    ("cpu", a2_10_CPU);
    ("dsk", a2_10_DSK);
    ("mem", a2_10_MEM);
    ("net", a2_10_NET);
    ("gpu", a2_10_GPU)
  ] [].
(** structs/atop_2_10.py:454-462 class Header: fields inherited from the base class atop_2_8.Header. *)
Definition a2_10_Header_fields : list (string * ctype) := a2_8_Header_fields.
Definition a2_10_Header : ctype := TStruct "atop_2_10.Header" a2_10_Header_fields [].
(** structs/atop_2_10.py:454-462: the class attributes. *)
Definition a2_10_class : hclass := {|
  hc_version := "2.10";
  hc_header := a2_10_Header;
  hc_record := a2_10_Record;
  hc_sstat := a2_10_SStat;
  hc_tstat := a2_10_TStat;
  hc_cstat := None |}.
