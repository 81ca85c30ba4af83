(** * Struct tables of atoparser/structs/atop_2_8.py

    GENERATED by tools/gen_structs.py from the text of that file; do not edit. *)
From Coq Require Import List ZArith String.
From Verif Require Import PyBase CTypes S_shared S_1_26 S_2_3 S_2_4 S_2_7.
Import ListNotations.
Local Open Scope Z_scope.
Local Open Scope string_scope.

Definition a2_8_ACCTACTIVE : Z := 1. (* structs/atop_2_8.py:32 *)
Definition a2_8_IOSTAT : Z := 4. (* structs/atop_2_8.py:33 *)
Definition a2_8_NETATOP : Z := 16. (* structs/atop_2_8.py:34 *)
Definition a2_8_NETATOPD : Z := 32. (* structs/atop_2_8.py:35 *)
Definition a2_8_DOCKSTAT : Z := 64. (* structs/atop_2_8.py:36 *)
Definition a2_8_GPUSTAT : Z := 128. (* structs/atop_2_8.py:37 *)
Definition a2_8_CGROUPV2 : Z := 256. (* structs/atop_2_8.py:38 *)
Definition a2_8_PNAMLEN : Z := 15. (* structs/atop_2_8.py:41 *)
Definition a2_8_CMDLEN : Z := 255. (* structs/atop_2_8.py:42 *)
Definition a2_8_CGRLEN : Z := 64. (* structs/atop_2_8.py:43 *)
Definition a2_8_MAXCPU : Z := 2048. (* structs/atop_2_8.py:46 *)
Definition a2_8_MAXDSK : Z := 1024. (* structs/atop_2_8.py:47 *)
Definition a2_8_MAXNUMA : Z := 1024. (* structs/atop_2_8.py:48 *)
Definition a2_8_MAXLVM : Z := 2048. (* structs/atop_2_8.py:49 *)
Definition a2_8_MAXMDD : Z := 256. (* structs/atop_2_8.py:50 *)
Definition a2_8_MAXINTF : Z := 128. (* structs/atop_2_8.py:51 *)
Definition a2_8_MAXCONTAINER : Z := 128. (* structs/atop_2_8.py:52 *)
Definition a2_8_MAXNFSMOUNT : Z := 64. (* structs/atop_2_8.py:53 *)
Definition a2_8_MAXIBPORT : Z := 32. (* structs/atop_2_8.py:54 *)
Definition a2_8_MAXGPU : Z := 32. (* structs/atop_2_8.py:55 *)
Definition a2_8_MAXGPUBUS : Z := 12. (* structs/atop_2_8.py:56 *)
Definition a2_8_MAXGPUTYPE : Z := 12. (* structs/atop_2_8.py:57 *)
Definition a2_8_MAXLLC : Z := 256. (* structs/atop_2_8.py:58 *)
Definition a2_8_MAXDKNAM : Z := 32. (* structs/atop_2_8.py:59 *)
Definition a2_8_MAXIBNAME : Z := 12. (* structs/atop_2_8.py:60 *)
(** structs/atop_2_8.py:63-94 class Record. *)
Definition a2_8_Record : ctype := TStruct "atop_2_8.Record" [
    ("curtime", sh_time_t);
    ("flags", (TInt false 2));
    ("ncgroups", (TInt false 2));
    ("sfuture", (TArr (TInt false 2) 2));
    ("scomplen", (TInt false 4));
    ("pcomplen", (TInt false 4));
    ("interval", (TInt false 4));
    ("ndeviat", (TInt false 4));
    ("nactproc", (TInt false 4));
    ("ntask", (TInt false 4));
    ("totproc", (TInt false 4));
    ("totrun", (TInt false 4));
    ("totslpi", (TInt false 4));
    ("totslpu", (TInt false 4));
    ("totzomb", (TInt false 4));
    ("nexit", (TInt false 4));
    ("noverflow", (TInt false 4));
    ("totidle", (TInt false 4));
    ("ccomplen", (TInt false 4));
    ("coriglen", (TInt false 4));
    ("ncgpids", (TInt false 4));
    ("icomplen", (TInt false 4));
    ("ifuture", (TInt false 4))
  ] [].
(** structs/atop_2_8.py:97-145 class MemStat. *)
Definition a2_8_MemStat : ctype := TStruct "atop_2_8.MemStat" [
    ("physmem", sh_count_t);
    ("freemem", sh_count_t);
    ("buffermem", sh_count_t);
    ("slabmem", sh_count_t);
    ("cachemem", sh_count_t);
    ("cachedrt", sh_count_t);
    ("totswap", sh_count_t);
    ("freeswap", sh_count_t);
    ("pgscans", sh_count_t);
    ("pgsteal", sh_count_t);
    ("allocstall", sh_count_t);
    ("swouts", sh_count_t);
    ("swins", sh_count_t);
    ("tcpsock", sh_count_t);
    ("udpsock", sh_count_t);
    ("commitlim", sh_count_t);
    ("committed", sh_count_t);
    ("shmem", sh_count_t);
    ("shmrss", sh_count_t);
    ("shmswp", sh_count_t);
    ("slabreclaim", sh_count_t);
    ("tothugepage", sh_count_t);
    ("freehugepage", sh_count_t);
    ("hugepagesz", sh_count_t);
    ("vmwballoon", sh_count_t);
    ("zfsarcsize", sh_count_t);
    ("swapcached", sh_count_t);
    ("ksmsharing", sh_count_t);
    ("ksmshared", sh_count_t);
    ("zswstored", sh_count_t);
    ("zswtotpool", sh_count_t);
    ("oomkills", sh_count_t);
    ("compactstall", sh_count_t);
    ("pgmigrate", sh_count_t);
    ("numamigrate", sh_count_t);
    ("pgouts", sh_count_t);
    ("pgins", sh_count_t);
    ("pagetables", sh_count_t);
    ("cfuture", (TArr sh_count_t 4))
  ] [].
(** structs/atop_2_8.py:148-169 class MemPerNUMA. *)
Definition a2_8_MemPerNUMA : ctype := TStruct "atop_2_8.MemPerNUMA" [
    ("numanr", (TInt true 4));
    ("frag", (TFloat));
    ("totmem", sh_count_t);
    ("freemem", sh_count_t);
    ("filepage", sh_count_t);
    ("dirtymem", sh_count_t);
    ("slabmem", sh_count_t);
    ("slabreclaim", sh_count_t);
    ("active", sh_count_t);
    ("inactive", sh_count_t);
    ("shmem", sh_count_t);
    ("tothp", sh_count_t)
  ] [].
(** structs/atop_2_8.py:172-184 class MemNUMA. *)
Definition a2_8_MemNUMA : ctype := TStruct "atop_2_8.MemNUMA" [
    ("nrnuma", sh_count_t);
    ("numa", (TArr a2_8_MemPerNUMA a2_8_MAXNUMA))
  ] [("numa", "nrnuma")].
(** structs/atop_2_8.py:187-207 class CPUPerNUMA. *)
Definition a2_8_CPUPerNUMA : ctype := TStruct "atop_2_8.CPUPerNUMA" [
    ("numanr", (TInt true 4));
    ("nrcpu", sh_count_t);
    ("stime", sh_count_t);
    ("utime", sh_count_t);
    ("ntime", sh_count_t);
    ("itime", sh_count_t);
    ("wtime", sh_count_t);
    ("Itime", sh_count_t);
    ("Stime", sh_count_t);
    ("steal", sh_count_t);
    ("guest", sh_count_t)
  ] [].
(** structs/atop_2_8.py:210-222 class CPUNUMA. *)
Definition a2_8_CPUNUMA : ctype := TStruct "atop_2_8.CPUNUMA" [
    ("nrnuma", sh_count_t);
    ("numa", (TArr a2_8_CPUPerNUMA a2_8_MAXNUMA))
  ] [("numa", "nrnuma")].
Definition a2_8_FreqCnt : ctype := a1_26_FreqCnt. (* structs/atop_2_8.py:225 *)
Definition a2_8_PerCPU : ctype := a2_7_PerCPU. (* structs/atop_2_8.py:228 *)
Definition a2_8_CPUStat : ctype := a2_7_CPUStat. (* structs/atop_2_8.py:231 *)
(** structs/atop_2_8.py:234-254 class PerDSK. *)
Definition a2_8_PerDSK : ctype := TStruct "atop_2_8.PerDSK" [
    ("name", (TArr (TChar) a2_8_MAXDKNAM));
    ("nread", sh_count_t);
    ("nrsect", sh_count_t);
    ("nwrite", sh_count_t);
    ("nwsect", sh_count_t);
    ("io_ms", sh_count_t);
    ("avque", sh_count_t);
    ("ndisc", sh_count_t);
    ("ndsect", sh_count_t);
    ("inflight", sh_count_t);
    ("cfuture", (TArr sh_count_t 3))
  ] [].
(** structs/atop_2_8.py:257-277 class DSKStat. *)
Definition a2_8_DSKStat : ctype := TStruct "atop_2_8.DSKStat" [
    ("ndsk", (TInt true 4));
    ("nmdd", (TInt true 4));
    ("nlvm", (TInt true 4));
    ("dsk", (TArr a2_8_PerDSK a2_8_MAXDSK));
    ("mdd", (TArr a2_8_PerDSK a2_8_MAXMDD));
    ("lvm", (TArr a2_8_PerDSK a2_8_MAXLVM))
  ] [("dsk", "ndsk"); ("mdd", "nmdd"); ("lvm", "nlvm")].
Definition a2_8_PerIntf : ctype := a2_3_PerIntf. (* structs/atop_2_8.py:280 *)
Definition a2_8_IntfStat : ctype := a2_3_IntfStat. (* structs/atop_2_8.py:283 *)
Definition a2_8_PerNFSMount : ctype := a2_3_PerNFSMount. (* structs/atop_2_8.py:286 *)
Definition a2_8_Server : ctype := a2_3_Server. (* structs/atop_2_8.py:289 *)
Definition a2_8_Client : ctype := a2_3_Client. (* structs/atop_2_8.py:292 *)
Definition a2_8_NFSMounts : ctype := a2_3_NFSMounts. (* structs/atop_2_8.py:295 *)
Definition a2_8_NFSStat : ctype := a2_3_NFSStat. (* structs/atop_2_8.py:298 *)
Definition a2_8_PSI : ctype := a2_4_PSI. (* structs/atop_2_8.py:301 *)
Definition a2_8_Pressure : ctype := a2_4_Pressure. (* structs/atop_2_8.py:304 *)
Definition a2_8_PerContainer : ctype := a2_3_PerContainer. (* structs/atop_2_8.py:307 *)
Definition a2_8_ContStat : ctype := a2_3_ContStat. (* structs/atop_2_8.py:310 *)
Definition a2_8_WWWStat : ctype := a1_26_WWWStat. (* structs/atop_2_8.py:313 *)
Definition a2_8_PerGPU : ctype := a2_4_PerGPU. (* structs/atop_2_8.py:316 *)
Definition a2_8_GPUStat : ctype := a2_4_GPUStat. (* structs/atop_2_8.py:319 *)
Definition a2_8_PerIFB : ctype := a2_4_PerIFB. (* structs/atop_2_8.py:322 *)
Definition a2_8_IFBStat : ctype := a2_4_IFBStat. (* structs/atop_2_8.py:325 *)
(** structs/atop_2_8.py:328-341 class PerLLC. *)
Definition a2_8_PerLLC : ctype := TStruct "atop_2_8.PerLLC" [
    ("id", (TInt false 1));
    ("occupancy", (TFloat));
    ("mbm_local", sh_count_t);
    ("mbm_total", sh_count_t)
  ] [].
(** structs/atop_2_8.py:344-356 class LLCStat. *)
Definition a2_8_LLCStat : ctype := TStruct "atop_2_8.LLCStat" [
    ("nrllcs", (TInt true 4));
    ("perllc", (TArr a2_8_PerLLC a2_8_MAXLLC))
  ] [("perllc", "nrllcs")].
Definition a2_8_IPv4Stats : ctype := a1_26_IPv4Stats. (* structs/atop_2_8.py:359 *)
(** structs/atop_2_8.py:362-398 class ICMPv4Stats. *)
Definition a2_8_ICMPv4Stats : ctype := TStruct "atop_2_8.ICMPv4Stats" [
    ("InMsgs", sh_count_t);
    ("InErrors", sh_count_t);
    ("InCsumErrors", sh_count_t);
    ("InDestUnreachs", sh_count_t);
    ("InTimeExcds", sh_count_t);
    ("InParmProbs", sh_count_t);
    ("InSrcQuenchs", sh_count_t);
    ("InRedirects", sh_count_t);
    ("InEchos", sh_count_t);
    ("InEchoReps", sh_count_t);
    ("InTimestamps", sh_count_t);
    ("InTimestampReps", sh_count_t);
    ("InAddrMasks", sh_count_t);
    ("InAddrMaskReps", sh_count_t);
    ("OutMsgs", sh_count_t);
    ("OutErrors", sh_count_t);
    ("OutDestUnreachs", sh_count_t);
    ("OutTimeExcds", sh_count_t);
    ("OutParmProbs", sh_count_t);
    ("OutSrcQuenchs", sh_count_t);
    ("OutRedirects", sh_count_t);
    ("OutEchos", sh_count_t);
    ("OutEchoReps", sh_count_t);
    ("OutTimestamps", sh_count_t);
    ("OutTimestampReps", sh_count_t);
    ("OutAddrMasks", sh_count_t);
    ("OutAddrMaskReps", sh_count_t)
  ] [].
Definition a2_8_UDPv4Stats : ctype := a1_26_UDPv4Stats. (* structs/atop_2_8.py:401 *)
Definition a2_8_TCPStats : ctype := a1_26_TCPStats. (* structs/atop_2_8.py:404 *)
Definition a2_8_IPv6Stats : ctype := a1_26_IPv6Stats. (* structs/atop_2_8.py:407 *)
Definition a2_8_ICMPv6Stats : ctype := a1_26_ICMPv6Stats. (* structs/atop_2_8.py:410 *)
Definition a2_8_UDPv6Stats : ctype := a1_26_UDPv6Stats. (* structs/atop_2_8.py:413 *)
(** structs/atop_2_8.py:416-432 class NETStat. *)
Definition a2_8_NETStat : ctype := TStruct "atop_2_8.NETStat" [
    ("ipv4", a2_8_IPv4Stats);
    ("icmpv4", a2_8_ICMPv4Stats);
    ("udpv4", a2_8_UDPv4Stats);
    ("ipv6", a2_8_IPv6Stats);
    ("icmpv6", a2_8_ICMPv6Stats);
    ("udpv6", a2_8_UDPv6Stats);
    ("tcp", a2_8_TCPStats)
  ] [].
(** structs/atop_2_8.py:435-457 class SStat. *)
Definition a2_8_SStat : ctype := TStruct "atop_2_8.SStat" [
    ("cpu", a2_8_CPUStat);
    ("mem", a2_8_MemStat);
    ("net", a2_8_NETStat);
    ("intf", a2_8_IntfStat);
    ("memnuma", a2_8_MemNUMA);
    ("cpunuma", a2_8_CPUNUMA);
    ("dsk", a2_8_DSKStat);
    ("nfs", a2_8_NFSStat);
    ("cfs", a2_8_ContStat);
    ("psi", a2_8_Pressure);
    ("gpu", a2_8_GPUStat);
    ("ifb", a2_8_IFBStat);
    ("llc", a2_8_LLCStat);
    ("www", a2_8_WWWStat)
  ] [].
(** structs/atop_2_8.py:460-496 class GEN. *)
Definition a2_8_GEN : ctype := TStruct "atop_2_8.GEN" [
    ("tgid", (TInt true 4));
    ("pid", (TInt true 4));
    ("ppid", (TInt true 4));
    ("ruid", (TInt true 4));
    ("euid", (TInt true 4));
    ("suid", (TInt true 4));
    ("fsuid", (TInt true 4));
    ("rgid", (TInt true 4));
    ("egid", (TInt true 4));
    ("sgid", (TInt true 4));
    ("fsgid", (TInt true 4));
    ("nthr", (TInt true 4));
    ("name", (TArr (TChar) (a2_8_PNAMLEN + 1)));
    ("isproc", (TChar));
    ("state", (TChar));
    ("excode", (TInt true 4));
    ("btime", sh_time_t);
    ("elaps", sh_time_t);
    ("cmdline", (TArr (TChar) (a2_8_CMDLEN + 1)));
    ("nthrslpi", (TInt true 4));
    ("nthrslpu", (TInt true 4));
    ("nthrrun", (TInt true 4));
    ("ctid", (TInt true 4));
    ("vpid", (TInt true 4));
    ("wasinactive", (TInt true 4));
    ("container", (TArr (TChar) 16));
    ("cgpath", (TArr (TChar) a2_8_CGRLEN))
  ] [].
(** structs/atop_2_8.py:499-524 class CPU. *)
Definition a2_8_CPU : ctype := TStruct "atop_2_8.CPU" [
    ("utime", sh_count_t);
    ("stime", sh_count_t);
    ("nice", (TInt true 4));
    ("prio", (TInt true 4));
    ("rtprio", (TInt true 4));
    ("policy", (TInt true 4));
    ("curcpu", (TInt true 4));
    ("sleepavg", (TInt true 4));
    ("cgcpuweight", (TInt true 4));
    ("cgcpumax", (TInt true 4));
    ("cgcpumaxr", (TInt true 4));
    ("ifuture", (TArr (TInt true 4) 3));
    ("wchan", (TArr (TChar) 16));
    ("rundelay", sh_count_t);
    ("blkdelay", sh_count_t);
    ("cfuture", (TArr sh_count_t 3))
  ] [].
Definition a2_8_DSK : ctype := a1_26_DSK. (* structs/atop_2_8.py:527 *)
(** structs/atop_2_8.py:530-557 class MEM. *)
Definition a2_8_MEM : ctype := TStruct "atop_2_8.MEM" [
    ("minflt", sh_count_t);
    ("majflt", sh_count_t);
    ("vexec", sh_count_t);
    ("vmem", sh_count_t);
    ("rmem", sh_count_t);
    ("pmem", sh_count_t);
    ("vgrow", sh_count_t);
    ("rgrow", sh_count_t);
    ("vdata", sh_count_t);
    ("vstack", sh_count_t);
    ("vlibs", sh_count_t);
    ("vswap", sh_count_t);
    ("vlock", sh_count_t);
    ("cgmemmax", sh_count_t);
    ("cgmemmaxr", sh_count_t);
    ("cgswpmax", sh_count_t);
    ("cgswpmaxr", sh_count_t);
    ("cfuture", (TArr sh_count_t 3))
  ] [].
Definition a2_8_NET : ctype := a2_3_NET. (* structs/atop_2_8.py:560 *)
Definition a2_8_GPU : ctype := a2_4_GPU. (* structs/atop_2_8.py:563 *)
(** structs/atop_2_8.py:566-580 class TStat. *)
Definition a2_8_TStat : ctype := TStruct "atop_2_8.TStat" [
    ("gen", a2_8_GEN);
    ("cpu", a2_8_CPU);
    ("dsk", a2_8_DSK);
    ("mem", a2_8_MEM);
    ("net", a2_8_NET);
    ("gpu", a2_8_GPU)
  ] [].
(** structs/atop_2_8.py:583-616 class Header: the struct part. *)
Definition a2_8_Header_fields : list (string * ctype) := [
    ("magic", (TInt false 4));
    ("aversion", (TInt false 2));
    ("future1", (TInt false 2));
    ("future2", (TInt false 2));
    ("rawheadlen", (TInt false 2));
    ("rawreclen", (TInt false 2));
    ("hertz", (TInt false 2));
    ("pidwidth", (TInt false 2));
    ("sfuture", (TArr (TInt false 2) 5));
    ("sstatlen", (TInt false 4));
    ("tstatlen", (TInt false 4));
    ("utsname", sh_UTSName);
    ("cfuture", (TArr (TChar) 8));
    ("pagesize", (TInt false 4));
    ("supportflags", (TInt true 4));
    ("osrel", (TInt true 4));
    ("osvers", (TInt true 4));
    ("ossub", (TInt true 4));
    ("ifuture", (TArr (TInt true 4) 6))
  ].
Definition a2_8_Header : ctype := TStruct "atop_2_8.Header" a2_8_Header_fields [].
(** structs/atop_2_8.py:583-616: the class attributes. *)
Definition a2_8_class : hclass := {|
  hc_version := "2.8";
  hc_header := a2_8_Header;
  hc_record := a2_8_Record;
  hc_sstat := a2_8_SStat;
  hc_tstat := a2_8_TStat;
  hc_cstat := None |}.
