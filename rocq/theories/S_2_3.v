(** * Struct tables of atoparser/structs/atop_2_3.py

    GENERATED by tools/gen_structs.py from the text of that file; do not edit. *)
From Coq Require Import List ZArith String.
From Verif Require Import PyBase CTypes S_shared S_1_26.
Import ListNotations.
Local Open Scope Z_scope.
Local Open Scope string_scope.

Definition a2_3_ACCTACTIVE : Z := 1. (* structs/atop_2_3.py:29 *)
Definition a2_3_IOSTAT : Z := 4. (* structs/atop_2_3.py:30 *)
Definition a2_3_NETATOP : Z := 16. (* structs/atop_2_3.py:31 *)
Definition a2_3_NETATOPD : Z := 32. (* structs/atop_2_3.py:32 *)
Definition a2_3_DOCKSTAT : Z := 64. (* structs/atop_2_3.py:33 *)
Definition a2_3_PNAMLEN : Z := 15. (* structs/atop_2_3.py:36 *)
Definition a2_3_CMDLEN : Z := 255. (* structs/atop_2_3.py:37 *)
Definition a2_3_MAXCPU : Z := 2048. (* structs/atop_2_3.py:40 *)
Definition a2_3_MAXDSK : Z := 1024. (* structs/atop_2_3.py:41 *)
Definition a2_3_MAXLVM : Z := 2048. (* structs/atop_2_3.py:42 *)
Definition a2_3_MAXMDD : Z := 256. (* structs/atop_2_3.py:43 *)
Definition a2_3_MAXINTF : Z := 128. (* structs/atop_2_3.py:44 *)
Definition a2_3_MAXCONTAINER : Z := 128. (* structs/atop_2_3.py:45 *)
Definition a2_3_MAXNFSMOUNT : Z := 64. (* structs/atop_2_3.py:46 *)
Definition a2_3_MAXDKNAM : Z := 32. (* structs/atop_2_3.py:47 *)
(** structs/atop_2_3.py:50-75 class Record. *)
Definition a2_3_Record : ctype := TStruct "atop_2_3.Record" [
    ("curtime", sh_time_t);
    ("flags", (TInt false 2));
    ("sfuture", (TArr (TInt false 2) 3));
    ("scomplen", (TInt false 4));
    ("pcomplen", (TInt false 4));
    ("interval", (TInt false 4));
    ("ndeviat", (TInt false 4));
    ("nactproc", (TInt false 4));
    ("ntask", (TInt false 4));
    ("totproc", (TInt false 4));
    ("totrun", (TInt false 4));
    ("totslpi", (TInt false 4));
    ("totslpu", (TInt false 4));
    ("totzomb", (TInt false 4));
    ("nexit", (TInt false 4));
    ("noverflow", (TInt false 4));
    ("ifuture", (TArr (TInt false 4) 6))
  ] [].
(** structs/atop_2_3.py:78-111 class MemStat. *)
Definition a2_3_MemStat : ctype := TStruct "atop_2_3.MemStat" [
    ("physmem", sh_count_t);
    ("freemem", sh_count_t);
    ("buffermem", sh_count_t);
    ("slabmem", sh_count_t);
    ("cachemem", sh_count_t);
    ("cachedrt", sh_count_t);
    ("totswap", sh_count_t);
    ("freeswap", sh_count_t);
    ("pgscans", sh_count_t);
    ("pgsteal", sh_count_t);
    ("allocstall", sh_count_t);
    ("swouts", sh_count_t);
    ("swins", sh_count_t);
    ("commitlim", sh_count_t);
    ("committed", sh_count_t);
    ("shmem", sh_count_t);
    ("shmrss", sh_count_t);
    ("shmswp", sh_count_t);
    ("slabreclaim", sh_count_t);
    ("tothugepage", sh_count_t);
    ("freehugepage", sh_count_t);
    ("hugepagesz", sh_count_t);
    ("vmwballoon", sh_count_t);
    ("cfuture", (TArr sh_count_t 8))
  ] [].
Definition a2_3_FreqCnt : ctype := a1_26_FreqCnt. (* structs/atop_2_3.py:114 *)
(** structs/atop_2_3.py:117-138 class PerCPU. *)
Definition a2_3_PerCPU : ctype := TStruct "atop_2_3.PerCPU" [
    ("cpunr", (TInt true 4));
    ("stime", sh_count_t);
    ("utime", sh_count_t);
    ("ntime", sh_count_t);
    ("itime", sh_count_t);
    ("wtime", sh_count_t);
    ("Itime", sh_count_t);
    ("Stime", sh_count_t);
    ("steal", sh_count_t);
    ("guest", sh_count_t);
    ("freqcnt", a2_3_FreqCnt);
    ("cfuture", (TArr sh_count_t 4))
  ] [].
(** structs/atop_2_3.py:141-161 class CPUStat. *)
Definition a2_3_CPUStat : ctype := TStruct "atop_2_3.CPUStat" [
    ("nrcpu", sh_count_t);
    ("devint", sh_count_t);
    ("csw", sh_count_t);
    ("nprocs", sh_count_t);
    ("lavg1", (TFloat));
    ("lavg5", (TFloat));
    ("lavg15", (TFloat));
    ("cfuture", (TArr sh_count_t 4));
    ("all", a2_3_PerCPU);
    ("cpu", (TArr a2_3_PerCPU a2_3_MAXCPU))
  ] [("cpu", "nrcpu")].
(** structs/atop_2_3.py:164-181 class PerDSK. *)
Definition a2_3_PerDSK : ctype := TStruct "atop_2_3.PerDSK" [
    ("name", (TArr (TChar) a2_3_MAXDKNAM));
    ("nread", sh_count_t);
    ("nrsect", sh_count_t);
    ("nwrite", sh_count_t);
    ("nwsect", sh_count_t);
    ("io_ms", sh_count_t);
    ("avque", sh_count_t);
    ("cfuture", (TArr sh_count_t 4))
  ] [].
(** structs/atop_2_3.py:184-204 class DSKStat. *)
Definition a2_3_DSKStat : ctype := TStruct "atop_2_3.DSKStat" [
    ("ndsk", (TInt true 4));
    ("nmdd", (TInt true 4));
    ("nlvm", (TInt true 4));
    ("dsk", (TArr a2_3_PerDSK a2_3_MAXDSK));
    ("mdd", (TArr a2_3_PerDSK a2_3_MAXMDD));
    ("lvm", (TArr a2_3_PerDSK a2_3_MAXLVM))
  ] [("dsk", "ndsk"); ("mdd", "nmdd"); ("lvm", "nlvm")].
(** structs/atop_2_3.py:207-240 class PerIntf. *)
Definition a2_3_PerIntf : ctype := TStruct "atop_2_3.PerIntf" [
    ("name", (TArr (TChar) 16));
    ("rbyte", sh_count_t);
    ("rpack", sh_count_t);
    ("rerrs", sh_count_t);
    ("rdrop", sh_count_t);
    ("rfifo", sh_count_t);
    ("rframe", sh_count_t);
    ("rcompr", sh_count_t);
    ("rmultic", sh_count_t);
    ("rfuture", (TArr sh_count_t 4));
    ("sbyte", sh_count_t);
    ("spack", sh_count_t);
    ("serrs", sh_count_t);
    ("sdrop", sh_count_t);
    ("sfifo", sh_count_t);
    ("scollis", sh_count_t);
    ("scarrier", sh_count_t);
    ("scompr", sh_count_t);
    ("sfuture", (TArr sh_count_t 4));
    ("type", (TChar));
    ("speed", (TInt true 8));
    ("speedp", (TInt true 8));
    ("duplex", (TChar));
    ("cfuture", (TArr sh_count_t 4))
  ] [].
(** structs/atop_2_3.py:243-257 class IntfStat. *)
Definition a2_3_IntfStat : ctype := TStruct "atop_2_3.IntfStat" [
    ("nrintf", (TInt true 4));
    ("intf", (TArr a2_3_PerIntf a2_3_MAXINTF))
  ] [("intf", "nrintf")].
(** structs/atop_2_3.py:260-280 class PerNFSMount. *)
Definition a2_3_PerNFSMount : ctype := TStruct "atop_2_3.PerNFSMount" [
    ("mountdev", (TArr (TChar) 128));
    ("age", sh_count_t);
    ("bytesread", sh_count_t);
    ("byteswrite", sh_count_t);
    ("bytesdread", sh_count_t);
    ("bytesdwrite", sh_count_t);
    ("bytestotread", sh_count_t);
    ("bytestotwrite", sh_count_t);
    ("pagesmread", sh_count_t);
    ("pagesmwrite", sh_count_t);
    ("future", (TArr sh_count_t 8))
  ] [].
(** structs/atop_2_3.py:283-308 class Server. *)
Definition a2_3_Server : ctype := TStruct "atop_2_3.Server" [
    ("netcnt", sh_count_t);
    ("netudpcnt", sh_count_t);
    ("nettcpcnt", sh_count_t);
    ("nettcpcon", sh_count_t);
    ("rpccnt", sh_count_t);
    ("rpcbadfmt", sh_count_t);
    ("rpcbadaut", sh_count_t);
    ("rpcbadcln", sh_count_t);
    ("rpcread", sh_count_t);
    ("rpcwrite", sh_count_t);
    ("rchits", sh_count_t);
    ("rcmiss", sh_count_t);
    ("rcnoca", sh_count_t);
    ("nrbytes", sh_count_t);
    ("nwbytes", sh_count_t);
    ("future", (TArr sh_count_t 8))
  ] [].
(** structs/atop_2_3.py:311-326 class Client. *)
Definition a2_3_Client : ctype := TStruct "atop_2_3.Client" [
    ("rpccnt", sh_count_t);
    ("rpcretrans", sh_count_t);
    ("rpcautrefresh", sh_count_t);
    ("rpcread", sh_count_t);
    ("rpcwrite", sh_count_t);
    ("future", (TArr sh_count_t 8))
  ] [].
(** structs/atop_2_3.py:329-343 class NFSMounts. *)
Definition a2_3_NFSMounts : ctype := TStruct "atop_2_3.NFSMounts" [
    ("nrmounts", (TInt true 4));
    ("nfsmnt", (TArr a2_3_PerNFSMount a2_3_MAXNFSMOUNT))
  ] [("nfsmnt", "nrmounts")].
(** structs/atop_2_3.py:346-358 class NFSStat. *)
Definition a2_3_NFSStat : ctype := TStruct "atop_2_3.NFSStat" [
    ("server", a2_3_Server);
    ("client", a2_3_Client);
    ("nfsmounts", a2_3_NFSMounts)
  ] [].
(** structs/atop_2_3.py:361-377 class PerContainer. *)
Definition a2_3_PerContainer : ctype := TStruct "atop_2_3.PerContainer" [
    ("ctid", (TInt false 8));
    ("numproc", (TInt false 8));
    ("system", sh_count_t);
    ("user", sh_count_t);
    ("nice", sh_count_t);
    ("uptime", sh_count_t);
    ("physpages", sh_count_t)
  ] [].
(** structs/atop_2_3.py:380-394 class ContStat. *)
Definition a2_3_ContStat : ctype := TStruct "atop_2_3.ContStat" [
    ("nrcontainer", (TInt true 4));
    ("cont", (TArr a2_3_PerContainer a2_3_MAXCONTAINER))
  ] [("cont", "nrcontainer")].
Definition a2_3_WWWStat : ctype := a1_26_WWWStat. (* structs/atop_2_3.py:397 *)
Definition a2_3_IPv4Stats : ctype := a1_26_IPv4Stats. (* structs/atop_2_3.py:400 *)
Definition a2_3_ICMPv4Stats : ctype := a1_26_ICMPv4Stats. (* structs/atop_2_3.py:403 *)
Definition a2_3_UDPv4Stats : ctype := a1_26_UDPv4Stats. (* structs/atop_2_3.py:406 *)
Definition a2_3_TCPStats : ctype := a1_26_TCPStats. (* structs/atop_2_3.py:409 *)
Definition a2_3_IPv6Stats : ctype := a1_26_IPv6Stats. (* structs/atop_2_3.py:412 *)
Definition a2_3_ICMPv6Stats : ctype := a1_26_ICMPv6Stats. (* structs/atop_2_3.py:415 *)
Definition a2_3_UDPv6Stats : ctype := a1_26_UDPv6Stats. (* structs/atop_2_3.py:418 *)
Definition a2_3_NETStat : ctype := a1_26_NETStat. (* structs/atop_2_3.py:421 *)
(** structs/atop_2_3.py:424-440 class SStat. *)
Definition a2_3_SStat : ctype := TStruct "atop_2_3.SStat" [
    ("cpu", a2_3_CPUStat);
    ("mem", a2_3_MemStat);
    ("net", a2_3_NETStat);
    ("intf", a2_3_IntfStat);
    ("dsk", a2_3_DSKStat);
    ("nfs", a2_3_NFSStat);
    ("cfs", a2_3_ContStat);
    ("www", a2_3_WWWStat)
  ] [].
(** structs/atop_2_3.py:443-478 class GEN. *)
Definition a2_3_GEN : ctype := TStruct "atop_2_3.GEN" [
    ("tgid", (TInt true 4));
    ("pid", (TInt true 4));
    ("ppid", (TInt true 4));
    ("ruid", (TInt true 4));
    ("euid", (TInt true 4));
    ("suid", (TInt true 4));
    ("fsuid", (TInt true 4));
    ("rgid", (TInt true 4));
    ("egid", (TInt true 4));
    ("sgid", (TInt true 4));
    ("fsgid", (TInt true 4));
    ("nthr", (TInt true 4));
    ("name", (TArr (TChar) (a2_3_PNAMLEN + 1)));
    ("isproc", (TChar));
    ("state", (TChar));
    ("excode", (TInt true 4));
    ("btime", sh_time_t);
    ("elaps", sh_time_t);
    ("cmdline", (TArr (TChar) (a2_3_CMDLEN + 1)));
    ("nthrslpi", (TInt true 4));
    ("nthrslpu", (TInt true 4));
    ("nthrrun", (TInt true 4));
    ("ctid", (TInt true 4));
    ("vpid", (TInt true 4));
    ("wasinactive", (TInt true 4));
    ("container", (TArr (TChar) 16))
  ] [].
Definition a2_3_CPU : ctype := a1_26_CPU. (* structs/atop_2_3.py:481 *)
Definition a2_3_DSK : ctype := a1_26_DSK. (* structs/atop_2_3.py:484 *)
(** structs/atop_2_3.py:487-509 class MEM. *)
Definition a2_3_MEM : ctype := TStruct "atop_2_3.MEM" [
    ("minflt", sh_count_t);
    ("majflt", sh_count_t);
    ("vexec", sh_count_t);
    ("vmem", sh_count_t);
    ("rmem", sh_count_t);
    ("pmem", sh_count_t);
    ("vgrow", sh_count_t);
    ("rgrow", sh_count_t);
    ("vdata", sh_count_t);
    ("vstack", sh_count_t);
    ("vlibs", sh_count_t);
    ("vswap", sh_count_t);
    ("cfuture", (TArr sh_count_t 4))
  ] [].
(** structs/atop_2_3.py:512-532 class NET. *)
Definition a2_3_NET : ctype := TStruct "atop_2_3.NET" [
    ("tcpsnd", sh_count_t);
    ("tcpssz", sh_count_t);
    ("tcprcv", sh_count_t);
    ("tcprsz", sh_count_t);
    ("udpsnd", sh_count_t);
    ("udpssz", sh_count_t);
    ("udprcv", sh_count_t);
    ("udprsz", sh_count_t);
    ("avail1", sh_count_t);
    ("avail2", sh_count_t);
    ("cfuture", (TArr sh_count_t 4))
  ] [].
(** structs/atop_2_3.py:535-548 class TStat. *)
Definition a2_3_TStat : ctype := TStruct "atop_2_3.TStat" [
    ("gen", a2_3_GEN);
    ("cpu", a2_3_CPU);
    ("dsk", a2_3_DSK);
    ("mem", a2_3_MEM);
    ("net", a2_3_NET)
  ] [].
(** structs/atop_2_3.py:551-583 class Header: the struct part. *)
Definition a2_3_Header_fields : list (string * ctype) := [
    ("magic", (TInt false 4));
    ("aversion", (TInt false 2));
    ("future1", (TInt false 2));
    ("future2", (TInt false 2));
    ("rawheadlen", (TInt false 2));
    ("rawreclen", (TInt false 2));
    ("hertz", (TInt false 2));
    ("sfuture", (TArr (TInt false 2) 6));
    ("sstatlen", (TInt false 4));
    ("tstatlen", (TInt false 4));
    ("utsname", sh_UTSName);
    ("cfuture", (TArr (TChar) 8));
    ("pagesize", (TInt false 4));
    ("supportflags", (TInt true 4));
    ("osrel", (TInt true 4));
    ("osvers", (TInt true 4));
    ("ossub", (TInt true 4));
    ("ifuture", (TArr (TInt true 4) 6))
  ].
Definition a2_3_Header : ctype := TStruct "atop_2_3.Header" a2_3_Header_fields [].
(** structs/atop_2_3.py:551-583: the class attributes. *)
Definition a2_3_class : hclass := {|
  hc_version := "2.3";
  hc_header := a2_3_Header;
  hc_record := a2_3_Record;
  hc_sstat := a2_3_SStat;
  hc_tstat := a2_3_TStat;
  hc_cstat := None |}.
