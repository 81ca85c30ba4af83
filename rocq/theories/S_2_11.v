(** * Struct tables of atoparser/structs/atop_2_11.py

    GENERATED by tools/gen_structs.py from the text of that file; do not edit. *)
From Coq Require Import List ZArith String.
From Verif Require Import PyBase CTypes S_shared S_1_26 S_2_3 S_2_4 S_2_7 S_2_8 S_2_10.
Import ListNotations.
Local Open Scope Z_scope.
Local Open Scope string_scope.

Definition a2_11_ACCTACTIVE : Z := 1. (* structs/atop_2_11.py:35 *)
Definition a2_11_IOSTAT : Z := 4. (* structs/atop_2_11.py:36 *)
Definition a2_11_NETATOP : Z := 16. (* structs/atop_2_11.py:37 *)
Definition a2_11_NETATOPD : Z := 32. (* structs/atop_2_11.py:38 *)
Definition a2_11_CONTAINERSTAT : Z := 64. (* structs/atop_2_11.py:39 *)
Definition a2_11_GPUSTAT : Z := 128. (* structs/atop_2_11.py:40 *)
Definition a2_11_CGROUPV2 : Z := 256. (* structs/atop_2_11.py:41 *)
Definition a2_11_NETATOPBPF : Z := 4096. (* structs/atop_2_11.py:42 *)
Definition a2_11_PNAMLEN : Z := 15. (* structs/atop_2_11.py:45 *)
Definition a2_11_CMDLEN : Z := 255. (* structs/atop_2_11.py:46 *)
Definition a2_11_CGRLEN : Z := 64. (* structs/atop_2_11.py:47 *)
Definition a2_11_UTSLEN : Z := 15. (* structs/atop_2_11.py:48 *)
Definition a2_11_MAXCPU : Z := 2048. (* structs/atop_2_11.py:51 *)
Definition a2_11_MAXDSK : Z := 1024. (* structs/atop_2_11.py:52 *)
Definition a2_11_MAXNUMA : Z := 1024. (* structs/atop_2_11.py:53 *)
Definition a2_11_MAXLVM : Z := 2048. (* structs/atop_2_11.py:54 *)
Definition a2_11_MAXMDD : Z := 256. (* structs/atop_2_11.py:55 *)
Definition a2_11_MAXINTF : Z := 128. (* structs/atop_2_11.py:56 *)
Definition a2_11_MAXCONTAINER : Z := 128. (* structs/atop_2_11.py:57 *)
Definition a2_11_MAXNFSMOUNT : Z := 64. (* structs/atop_2_11.py:58 *)
Definition a2_11_MAXIBPORT : Z := 32. (* structs/atop_2_11.py:59 *)
Definition a2_11_MAXGPU : Z := 32. (* structs/atop_2_11.py:60 *)
Definition a2_11_MAXGPUBUS : Z := 12. (* structs/atop_2_11.py:61 *)
Definition a2_11_MAXGPUTYPE : Z := 12. (* structs/atop_2_11.py:62 *)
Definition a2_11_MAXLLC : Z := 256. (* structs/atop_2_11.py:63 *)
Definition a2_11_MAXDKNAM : Z := 32. (* structs/atop_2_11.py:64 *)
Definition a2_11_MAXIBNAME : Z := 12. (* structs/atop_2_11.py:65 *)
(** structs/atop_2_11.py:68-99 class Record. *)
Definition a2_11_Record : ctype := TStruct "atop_2_11.Record" [
    ("curtime", sh_time_t);
    ("flags", (TInt false 2));
    ("ncgroups", (TInt false 2));
    ("sfuture", (TArr (TInt false 2) 2));
    ("scomplen", (TInt false 4));
    ("pcomplen", (TInt false 4));
    ("interval", (TInt false 4));
    ("ndeviat", (TInt false 4));
    ("nactproc", (TInt false 4));
    ("ntask", (TInt false 4));
    ("totproc", (TInt false 4));
    ("totrun", (TInt false 4));
    ("totslpi", (TInt false 4));
    ("totslpu", (TInt false 4));
    ("totzomb", (TInt false 4));
    ("nexit", (TInt false 4));
    ("noverflow", (TInt false 4));
    ("totidle", (TInt false 4));
    ("ccomplen", (TInt false 4));
    ("coriglen", (TInt false 4));
    ("ncgpids", (TInt false 4));
    ("icomplen", (TInt false 4));
    ("ifuture", (TInt false 4))
  ] [].
(** structs/atop_2_11.py:102-157 class MemStat. *)
Definition a2_11_MemStat : ctype := TStruct "atop_2_11.MemStat" [
    ("physmem", sh_count_t);
    ("freemem", sh_count_t);
    ("buffermem", sh_count_t);
    ("slabmem", sh_count_t);
    ("cachemem", sh_count_t);
    ("cachedrt", sh_count_t);
    ("totswap", sh_count_t);
    ("freeswap", sh_count_t);
    ("pgscans", sh_count_t);
    ("pgsteal", sh_count_t);
    ("allocstall", sh_count_t);
    ("swouts", sh_count_t);
    ("swins", sh_count_t);
    ("tcpsock", sh_count_t);
    ("udpsock", sh_count_t);
    ("commitlim", sh_count_t);
    ("committed", sh_count_t);
    ("shmem", sh_count_t);
    ("shmrss", sh_count_t);
    ("shmswp", sh_count_t);
    ("slabreclaim", sh_count_t);
    ("stothugepage", sh_count_t);
    ("sfreehugepage", sh_count_t);
    ("shugepagesz", sh_count_t);
    ("vmwballoon", sh_count_t);
    ("zfsarcsize", sh_count_t);
    ("swapcached", sh_count_t);
    ("ksmsharing", sh_count_t);
    ("ksmshared", sh_count_t);
    ("zswapped", sh_count_t);
    ("zswap", sh_count_t);
    ("oomkills", sh_count_t);
    ("compactstall", sh_count_t);
    ("pgmigrate", sh_count_t);
    ("numamigrate", sh_count_t);
    ("pgouts", sh_count_t);
    ("pgins", sh_count_t);
    ("pagetables", sh_count_t);
    ("zswouts", sh_count_t);
    ("zswins", sh_count_t);
    ("ltothugepage", sh_count_t);
    ("lfreehugepage", sh_count_t);
    ("lhugepagesz", sh_count_t);
    ("availablemem", sh_count_t);
    ("anonhugepage", sh_count_t);
    ("cfuture", (TArr sh_count_t 5))
  ] [].
(** structs/atop_2_11.py:160-183 class MemPerNUMA. *)
Definition a2_11_MemPerNUMA : ctype := TStruct "atop_2_11.MemPerNUMA" [
    ("numanr", (TInt true 4));
    ("frag", (TFloat));
    ("totmem", sh_count_t);
    ("freemem", sh_count_t);
    ("filepage", sh_count_t);
    ("dirtymem", sh_count_t);
    ("slabmem", sh_count_t);
    ("slabreclaim", sh_count_t);
    ("active", sh_count_t);
    ("inactive", sh_count_t);
    ("shmem", sh_count_t);
    ("tothp", sh_count_t);
    ("freehp", sh_count_t);
    ("cfuture", (TArr sh_count_t 2))
  ] [].
(** structs/atop_2_11.py:186-198 class MemNUMA. *)
Definition a2_11_MemNUMA : ctype := TStruct "atop_2_11.MemNUMA" [
    ("nrnuma", sh_count_t);
    ("numa", (TArr a2_11_MemPerNUMA a2_11_MAXNUMA))
  ] [("numa", "nrnuma")].
(** structs/atop_2_11.py:201-222 class CPUPerNUMA. *)
Definition a2_11_CPUPerNUMA : ctype := TStruct "atop_2_11.CPUPerNUMA" [
    ("numanr", (TInt true 4));
    ("nrcpu", sh_count_t);
    ("stime", sh_count_t);
    ("utime", sh_count_t);
    ("ntime", sh_count_t);
    ("itime", sh_count_t);
    ("wtime", sh_count_t);
    ("Itime", sh_count_t);
    ("Stime", sh_count_t);
    ("steal", sh_count_t);
    ("guest", sh_count_t);
    ("cfuture", (TArr sh_count_t 2))
  ] [].
(** structs/atop_2_11.py:225-237 class CPUNUMA. *)
Definition a2_11_CPUNUMA : ctype := TStruct "atop_2_11.CPUNUMA" [
    ("nrnuma", sh_count_t);
    ("numa", (TArr a2_11_CPUPerNUMA a2_11_MAXNUMA))
  ] [("numa", "nrnuma")].
Definition a2_11_FreqCnt : ctype := a1_26_FreqCnt. (* structs/atop_2_11.py:240 *)
Definition a2_11_PerCPU : ctype := a2_7_PerCPU. (* structs/atop_2_11.py:243 *)
Definition a2_11_CPUStat : ctype := a2_7_CPUStat. (* structs/atop_2_11.py:246 *)
Definition a2_11_PerDSK : ctype := a2_8_PerDSK. (* structs/atop_2_11.py:249 *)
Definition a2_11_DSKStat : ctype := a2_8_DSKStat. (* structs/atop_2_11.py:252 *)
Definition a2_11_PerIntf : ctype := a2_3_PerIntf. (* structs/atop_2_11.py:255 *)
Definition a2_11_IntfStat : ctype := a2_3_IntfStat. (* structs/atop_2_11.py:258 *)
Definition a2_11_PerNFSMount : ctype := a2_3_PerNFSMount. (* structs/atop_2_11.py:261 *)
Definition a2_11_Server : ctype := a2_3_Server. (* structs/atop_2_11.py:264 *)
Definition a2_11_Client : ctype := a2_3_Client. (* structs/atop_2_11.py:267 *)
Definition a2_11_NFSMounts : ctype := a2_3_NFSMounts. (* structs/atop_2_11.py:270 *)
Definition a2_11_NFSStat : ctype := a2_3_NFSStat. (* structs/atop_2_11.py:273 *)
Definition a2_11_PSI : ctype := a2_4_PSI. (* structs/atop_2_11.py:276 *)
Definition a2_11_Pressure : ctype := a2_4_Pressure. (* structs/atop_2_11.py:279 *)
Definition a2_11_PerContainer : ctype := a2_3_PerContainer. (* structs/atop_2_11.py:282 *)
Definition a2_11_ContStat : ctype := a2_3_ContStat. (* structs/atop_2_11.py:285 *)
Definition a2_11_WWWStat : ctype := a1_26_WWWStat. (* structs/atop_2_11.py:288 *)
Definition a2_11_PerGPU : ctype := a2_4_PerGPU. (* structs/atop_2_11.py:291 *)
Definition a2_11_GPUStat : ctype := a2_4_GPUStat. (* structs/atop_2_11.py:294 *)
(** structs/atop_2_11.py:297-315 class PerIFB. *)
Definition a2_11_PerIFB : ctype := TStruct "atop_2_11.PerIFB" [
    ("ibname", (TArr (TChar) a2_11_MAXIBNAME));
    ("portnr", (TInt true 2));
    ("lanes", (TInt true 2));
    ("rate", sh_count_t);
    ("rcvb", sh_count_t);
    ("sndb", sh_count_t);
    ("rcvp", sh_count_t);
    ("sndp", sh_count_t);
    ("cfuture", (TArr sh_count_t 4))
  ] [].
(** structs/atop_2_11.py:318-332 class IFBStat. *)
Definition a2_11_IFBStat : ctype := TStruct "atop_2_11.IFBStat" [
    ("nrports", (TInt true 4));
    ("ifb", (TArr a2_11_PerIFB a2_11_MAXIBPORT))
  ] [("ifb", "nrports")].
Definition a2_11_PerLLC : ctype := a2_8_PerLLC. (* structs/atop_2_11.py:335 *)
Definition a2_11_LLCStat : ctype := a2_8_LLCStat. (* structs/atop_2_11.py:338 *)
Definition a2_11_IPv4Stats : ctype := a1_26_IPv4Stats. (* structs/atop_2_11.py:341 *)
Definition a2_11_ICMPv4Stats : ctype := a2_8_ICMPv4Stats. (* structs/atop_2_11.py:344 *)
Definition a2_11_UDPv4Stats : ctype := a1_26_UDPv4Stats. (* structs/atop_2_11.py:347 *)
Definition a2_11_TCPStats : ctype := a2_10_TCPStats. (* structs/atop_2_11.py:350 *)
Definition a2_11_IPv6Stats : ctype := a1_26_IPv6Stats. (* structs/atop_2_11.py:353 *)
Definition a2_11_ICMPv6Stats : ctype := a1_26_ICMPv6Stats. (* structs/atop_2_11.py:356 *)
Definition a2_11_UDPv6Stats : ctype := a1_26_UDPv6Stats. (* structs/atop_2_11.py:359 *)
Definition a2_11_NETStat : ctype := a2_10_NETStat. (* structs/atop_2_11.py:362 *)
(** structs/atop_2_11.py:365-387 class SStat. *)
Definition a2_11_SStat : ctype := TStruct "atop_2_11.SStat" [
    ("cpu", a2_11_CPUStat);
    ("mem", a2_11_MemStat);
    ("net", a2_11_NETStat);
    ("intf", a2_11_IntfStat);
    ("memnuma", a2_11_MemNUMA);
    ("cpunuma", a2_11_CPUNUMA);
    ("dsk", a2_11_DSKStat);
    ("nfs", a2_11_NFSStat);
    ("cfs", a2_11_ContStat);
    ("psi", a2_11_Pressure);
    ("gpu", a2_11_GPUStat);
    ("ifb", a2_11_IFBStat);
    ("llc", a2_11_LLCStat);
    ("www", a2_11_WWWStat)
  ] [].
(** structs/atop_2_11.py:390-428 class GEN. *)
Definition a2_11_GEN : ctype := TStruct "atop_2_11.GEN" [
    ("tgid", (TInt true 4));
    ("pid", (TInt true 4));
    ("ppid", (TInt true 4));
    ("ruid", (TInt true 4));
    ("euid", (TInt true 4));
    ("suid", (TInt true 4));
    ("fsuid", (TInt true 4));
    ("rgid", (TInt true 4));
    ("egid", (TInt true 4));
    ("sgid", (TInt true 4));
    ("fsgid", (TInt true 4));
    ("nthr", (TInt true 4));
    ("name", (TArr (TChar) (a2_11_PNAMLEN + 1)));
    ("isproc", (TChar));
    ("state", (TChar));
    ("excode", (TInt true 4));
    ("btime", sh_time_t);
    ("elaps", sh_time_t);
    ("cmdline", (TArr (TChar) (a2_11_CMDLEN + 1)));
    ("nthrslpi", (TInt true 4));
    ("nthrslpu", (TInt true 4));
    ("nthrrun", (TInt true 4));
    ("nthridle", (TInt true 4));
    ("ctid", (TInt true 4));
    ("vpid", (TInt true 4));
    ("wasinactive", (TInt true 4));
    ("utsname", (TArr (TChar) (a2_11_UTSLEN + 1)));
    ("cgroupix", (TInt true 4));
    ("ifuture", (TArr (TInt true 4) 4))
  ] [].
(** structs/atop_2_11.py:431-455 class CPU. *)
Definition a2_11_CPU : ctype := TStruct "atop_2_11.CPU" [
    ("utime", sh_count_t);
    ("stime", sh_count_t);
    ("nice", (TInt true 4));
    ("prio", (TInt true 4));
    ("rtprio", (TInt true 4));
    ("policy", (TInt true 4));
    ("curcpu", (TInt true 4));
    ("sleepavg", (TInt true 4));
    ("ifuture", (TArr (TInt true 4) 6));
    ("wchan", (TArr (TChar) 16));
    ("rundelay", sh_count_t);
    ("blkdelay", sh_count_t);
    ("nvcsw", sh_count_t);
    ("nivcsw", sh_count_t);
    ("cfuture", (TArr sh_count_t 3))
  ] [].
Definition a2_11_DSK : ctype := a1_26_DSK. (* structs/atop_2_11.py:458 *)
(** structs/atop_2_11.py:461-484 class MEM. *)
Definition a2_11_MEM : ctype := TStruct "atop_2_11.MEM" [
    ("minflt", sh_count_t);
    ("majflt", sh_count_t);
    ("vexec", sh_count_t);
    ("vmem", sh_count_t);
    ("rmem", sh_count_t);
    ("pmem", sh_count_t);
    ("vgrow", sh_count_t);
    ("rgrow", sh_count_t);
    ("vdata", sh_count_t);
    ("vstack", sh_count_t);
    ("vlibs", sh_count_t);
    ("vswap", sh_count_t);
    ("vlock", sh_count_t);
    ("cfuture", (TArr sh_count_t 7))
  ] [].
Definition a2_11_NET : ctype := a2_3_NET. (* structs/atop_2_11.py:487 *)
(** structs/atop_2_11.py:490-510 class GPU. *)
Definition a2_11_GPU : ctype := TStruct "atop_2_11.GPU" [
    ("state", (TChar));
    ("bfuture", (TArr (TChar) 3));
    ("nrgpus", (TInt true 2));
    ("gpulist", (TInt true 4));
    ("gpubusy", (TInt true 4));
    ("membusy", (TInt true 4));
    ("timems", sh_count_t);
    ("memnow", sh_count_t);
    ("memcum", sh_count_t);
    ("sample", sh_count_t);
    ("cfuture", (TArr sh_count_t 3))
  ] [].
(** structs/atop_2_11.py:513-527 class TStat. *)
Definition a2_11_TStat : ctype := TStruct "atop_2_11.TStat" [
    ("gen", a2_11_GEN);
    ("cpu", a2_11_CPU);
    ("dsk", a2_11_DSK);
    ("mem", a2_11_MEM);
    ("net", a2_11_NET);
    ("gpu", a2_11_GPU)
  ] [].
(** structs/atop_2_11.py:530-550 class CGGen. *)
Definition a2_11_CGGen : ctype := TStruct "atop_2_11.CGGen" [
    ("structlen", (TInt true 4));
    ("sequence", (TInt true 4));
    ("parentseq", (TInt true 4));
    ("depth", (TInt true 4));
    ("nprocs", (TInt true 4));
    ("procsbelow", (TInt true 4));
    ("namelen", (TInt true 4));
    ("fullnamelen", (TInt true 4));
    ("ifuture", (TArr (TInt true 4) 4));
    ("namehash", (TInt true 8));
    ("lfuture", (TArr (TInt true 8) 4))
  ] [].
(** structs/atop_2_11.py:553-569 class CGConf. *)
Definition a2_11_CGConf : ctype := TStruct "atop_2_11.CGConf" [
    ("cpuweight", (TInt true 4));
    ("cpumax", (TInt true 4));
    ("memmax", sh_count_t);
    ("swpmax", sh_count_t);
    ("dskweight", (TInt true 4));
    ("ifuture", (TArr (TInt true 4) 5));
    ("cfuture", (TArr sh_count_t 5))
  ] [].
(** structs/atop_2_11.py:572-586 class CGCPU. *)
Definition a2_11_CGCPU : ctype := TStruct "atop_2_11.CGCPU" [
    ("utime", sh_count_t);
    ("stime", sh_count_t);
    ("somepres", sh_count_t);
    ("fullpres", sh_count_t);
    ("cfuture", (TArr sh_count_t 5))
  ] [].
(** structs/atop_2_11.py:589-606 class CGMem. *)
Definition a2_11_CGMem : ctype := TStruct "atop_2_11.CGMem" [
    ("current", sh_count_t);
    ("anon", sh_count_t);
    ("file", sh_count_t);
    ("kernel", sh_count_t);
    ("shmem", sh_count_t);
    ("somepres", sh_count_t);
    ("fullpres", sh_count_t);
    ("cfuture", (TArr sh_count_t 5))
  ] [].
(** structs/atop_2_11.py:609-625 class CGDSK. *)
Definition a2_11_CGDSK : ctype := TStruct "atop_2_11.CGDSK" [
    ("rbytes", sh_count_t);
    ("wbytes", sh_count_t);
    ("rios", sh_count_t);
    ("wios", sh_count_t);
    ("somepres", sh_count_t);
    ("fullpres", sh_count_t);
    ("cfuture", (TArr sh_count_t 5))
  ] [].
(** structs/atop_2_11.py:628-642 class CStat. *)
Definition a2_11_CStat : ctype := TStruct "atop_2_11.CStat" [
    ("gen", a2_11_CGGen);
    ("conf", a2_11_CGConf);
    ("cpu", a2_11_CGCPU);
    ("mem", a2_11_CGMem);
    ("dsk", a2_11_CGDSK);
    ("cgname", (TArr (TChar) 0))
  ] [].
(** structs/atop_2_11.py:671-705 class Header: the struct part. *)
Definition a2_11_Header_fields : list (string * ctype) := [
    ("magic", (TInt false 4));
    ("aversion", (TInt false 2));
    ("future1", (TInt false 2));
    ("future2", (TInt false 2));
    ("rawheadlen", (TInt false 2));
    ("rawreclen", (TInt false 2));
    ("hertz", (TInt false 2));
    ("pidwidth", (TInt false 2));
    ("sfuture", (TArr (TInt false 2) 5));
    ("sstatlen", (TInt false 4));
    ("tstatlen", (TInt false 4));
    ("utsname", sh_UTSName);
    ("cfuture", (TArr (TChar) 8));
    ("pagesize", (TInt false 4));
    ("supportflags", (TInt true 4));
    ("osrel", (TInt true 4));
    ("osvers", (TInt true 4));
    ("ossub", (TInt true 4));
    ("cstatlen", (TInt true 4));
    ("ifuture", (TArr (TInt true 4) 5))
  ].
Definition a2_11_Header : ctype := TStruct "atop_2_11.Header" a2_11_Header_fields [].
(** structs/atop_2_11.py:671-705: the class attributes. *)
Definition a2_11_class : hclass := {|
  hc_version := "2.11";
  hc_header := a2_11_Header;
  hc_record := a2_11_Record;
  hc_sstat := a2_11_SStat;
  hc_tstat := a2_11_TStat;
  hc_cstat := Some a2_11_CStat |}.
