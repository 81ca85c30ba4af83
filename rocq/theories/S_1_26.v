(** * Struct tables of atoparser/structs/atop_1_26.py

    GENERATED by tools/gen_structs.py from the text of that file; do not edit. *)
From Coq Require Import List ZArith String.
From Verif Require Import PyBase CTypes S_shared.
Import ListNotations.
Local Open Scope Z_scope.
Local Open Scope string_scope.

Definition a1_26_ACCTACTIVE : Z := 1. (* structs/atop_1_26.py:27 *)
Definition a1_26_PATCHSTAT : Z := 2. (* structs/atop_1_26.py:28 *)
Definition a1_26_IOSTAT : Z := 4. (* structs/atop_1_26.py:29 *)
Definition a1_26_PATCHACCT : Z := 8. (* structs/atop_1_26.py:30 *)
Definition a1_26_PNAMLEN : Z := 15. (* structs/atop_1_26.py:33 *)
Definition a1_26_CMDLEN : Z := 150. (* structs/atop_1_26.py:34 *)
Definition a1_26_MAXCPU : Z := 64. (* structs/atop_1_26.py:37 *)
Definition a1_26_MAXDSK : Z := 256. (* structs/atop_1_26.py:38 *)
Definition a1_26_MAXLVM : Z := 256. (* structs/atop_1_26.py:39 *)
Definition a1_26_MAXMDD : Z := 128. (* structs/atop_1_26.py:40 *)
Definition a1_26_MAXDKNAM : Z := 32. (* structs/atop_1_26.py:41 *)
Definition a1_26_MAXINTF : Z := 32. (* structs/atop_1_26.py:42 *)
(** structs/atop_1_26.py:45-67 class Record. *)
Definition a1_26_Record : ctype := TStruct "atop_1_26.Record" [
    ("curtime", sh_time_t);
    ("flags", (TInt false 2));
    ("sfuture", (TArr (TInt false 2) 3));
    ("scomplen", (TInt false 4));
    ("pcomplen", (TInt false 4));
    ("interval", (TInt false 4));
    ("nlist", (TInt false 4));
    ("npresent", (TInt false 4));
    ("nexit", (TInt false 4));
    ("ntrun", (TInt false 4));
    ("ntslpi", (TInt false 4));
    ("ntslpu", (TInt false 4));
    ("nzombie", (TInt false 4));
    ("ifuture", (TArr (TInt false 4) 6))
  ] [].
(** structs/atop_1_26.py:70-94 class MemStat. *)
Definition a1_26_MemStat : ctype := TStruct "atop_1_26.MemStat" [
    ("physmem", sh_count_t);
    ("freemem", sh_count_t);
    ("buffermem", sh_count_t);
    ("slabmem", sh_count_t);
    ("cachemem", sh_count_t);
    ("cachedrt", sh_count_t);
    ("totswap", sh_count_t);
    ("freeswap", sh_count_t);
    ("pgscans", sh_count_t);
    ("allocstall", sh_count_t);
    ("swouts", sh_count_t);
    ("swins", sh_count_t);
    ("commitlim", sh_count_t);
    ("committed", sh_count_t);
    ("cfuture", (TArr sh_count_t 4))
  ] [].
(** structs/atop_1_26.py:97-109 class FreqCnt. *)
Definition a1_26_FreqCnt : ctype := TStruct "atop_1_26.FreqCnt" [
    ("maxfreq", sh_count_t);
    ("cnt", sh_count_t);
    ("ticks", sh_count_t)
  ] [].
(** structs/atop_1_26.py:112-133 class PerCPU. *)
Definition a1_26_PerCPU : ctype := TStruct "atop_1_26.PerCPU" [
    ("cpunr", (TInt true 4));
    ("stime", sh_count_t);
    ("utime", sh_count_t);
    ("ntime", sh_count_t);
    ("itime", sh_count_t);
    ("wtime", sh_count_t);
    ("Itime", sh_count_t);
    ("Stime", sh_count_t);
    ("steal", sh_count_t);
    ("guest", sh_count_t);
    ("freqcnt", a1_26_FreqCnt);
    ("cfuture", (TArr sh_count_t 1))
  ] [].
(** structs/atop_1_26.py:136-156 class CPUStat. *)
Definition a1_26_CPUStat : ctype := TStruct "atop_1_26.CPUStat" [
    ("nrcpu", sh_count_t);
    ("devint", sh_count_t);
    ("csw", sh_count_t);
    ("nprocs", sh_count_t);
    ("lavg1", (TFloat));
    ("lavg5", (TFloat));
    ("lavg15", (TFloat));
    ("cfuture", (TArr sh_count_t 4));
    ("all", a1_26_PerCPU);
    ("cpu", (TArr a1_26_PerCPU a1_26_MAXCPU))
  ] [("cpu", "nrcpu")].
(** structs/atop_1_26.py:159-187 class IPv4Stats. *)
Definition a1_26_IPv4Stats : ctype := TStruct "atop_1_26.IPv4Stats" [
    ("Forwarding", sh_count_t);
    ("DefaultTTL", sh_count_t);
    ("InReceives", sh_count_t);
    ("InHdrErrors", sh_count_t);
    ("InAddrErrors", sh_count_t);
    ("ForwDatagrams", sh_count_t);
    ("InUnknownProtos", sh_count_t);
    ("InDiscards", sh_count_t);
    ("InDelivers", sh_count_t);
    ("OutRequests", sh_count_t);
    ("OutDiscards", sh_count_t);
    ("OutNoRoutes", sh_count_t);
    ("ReasmTimeout", sh_count_t);
    ("ReasmReqds", sh_count_t);
    ("ReasmOKs", sh_count_t);
    ("ReasmFails", sh_count_t);
    ("FragOKs", sh_count_t);
    ("FragFails", sh_count_t);
    ("FragCreates", sh_count_t)
  ] [].
(** structs/atop_1_26.py:190-225 class ICMPv4Stats. *)
Definition a1_26_ICMPv4Stats : ctype := TStruct "atop_1_26.ICMPv4Stats" [
    ("InMsgs", sh_count_t);
    ("InErrors", sh_count_t);
    ("InDestUnreachs", sh_count_t);
    ("InTimeExcds", sh_count_t);
    ("InParmProbs", sh_count_t);
    ("InSrcQuenchs", sh_count_t);
    ("InRedirects", sh_count_t);
    ("InEchos", sh_count_t);
    ("InEchoReps", sh_count_t);
    ("InTimestamps", sh_count_t);
    ("InTimestampReps", sh_count_t);
    ("InAddrMasks", sh_count_t);
    ("InAddrMaskReps", sh_count_t);
    ("OutMsgs", sh_count_t);
    ("OutErrors", sh_count_t);
    ("OutDestUnreachs", sh_count_t);
    ("OutTimeExcds", sh_count_t);
    ("OutParmProbs", sh_count_t);
    ("OutSrcQuenchs", sh_count_t);
    ("OutRedirects", sh_count_t);
    ("OutEchos", sh_count_t);
    ("OutEchoReps", sh_count_t);
    ("OutTimestamps", sh_count_t);
    ("OutTimestampReps", sh_count_t);
    ("OutAddrMasks", sh_count_t);
    ("OutAddrMaskReps", sh_count_t)
  ] [].
(** structs/atop_1_26.py:228-241 class UDPv4Stats. *)
Definition a1_26_UDPv4Stats : ctype := TStruct "atop_1_26.UDPv4Stats" [
    ("InDatagrams", sh_count_t);
    ("NoPorts", sh_count_t);
    ("InErrors", sh_count_t);
    ("OutDatagrams", sh_count_t)
  ] [].
(** structs/atop_1_26.py:244-267 class TCPStats. *)
Definition a1_26_TCPStats : ctype := TStruct "atop_1_26.TCPStats" [
    ("RtoAlgorithm", sh_count_t);
    ("RtoMin", sh_count_t);
    ("RtoMax", sh_count_t);
    ("MaxConn", sh_count_t);
    ("ActiveOpens", sh_count_t);
    ("PassiveOpens", sh_count_t);
    ("AttemptFails", sh_count_t);
    ("EstabResets", sh_count_t);
    ("CurrEstab", sh_count_t);
    ("InSegs", sh_count_t);
    ("OutSegs", sh_count_t);
    ("RetransSegs", sh_count_t);
    ("InErrs", sh_count_t);
    ("OutRsts", sh_count_t)
  ] [].
(** structs/atop_1_26.py:270-301 class IPv6Stats. *)
Definition a1_26_IPv6Stats : ctype := TStruct "atop_1_26.IPv6Stats" [
    ("Ip6InReceives", sh_count_t);
    ("Ip6InHdrErrors", sh_count_t);
    ("Ip6InTooBigErrors", sh_count_t);
    ("Ip6InNoRoutes", sh_count_t);
    ("Ip6InAddrErrors", sh_count_t);
    ("Ip6InUnknownProtos", sh_count_t);
    ("Ip6InTruncatedPkts", sh_count_t);
    ("Ip6InDiscards", sh_count_t);
    ("Ip6InDelivers", sh_count_t);
    ("Ip6OutForwDatagrams", sh_count_t);
    ("Ip6OutRequests", sh_count_t);
    ("Ip6OutDiscards", sh_count_t);
    ("Ip6OutNoRoutes", sh_count_t);
    ("Ip6ReasmTimeout", sh_count_t);
    ("Ip6ReasmReqds", sh_count_t);
    ("Ip6ReasmOKs", sh_count_t);
    ("Ip6ReasmFails", sh_count_t);
    ("Ip6FragOKs", sh_count_t);
    ("Ip6FragFails", sh_count_t);
    ("Ip6FragCreates", sh_count_t);
    ("Ip6InMcastPkts", sh_count_t);
    ("Ip6OutMcastPkts", sh_count_t)
  ] [].
(** structs/atop_1_26.py:304-341 class ICMPv6Stats. *)
Definition a1_26_ICMPv6Stats : ctype := TStruct "atop_1_26.ICMPv6Stats" [
    ("Icmp6InMsgs", sh_count_t);
    ("Icmp6InErrors", sh_count_t);
    ("Icmp6InDestUnreachs", sh_count_t);
    ("Icmp6InPktTooBigs", sh_count_t);
    ("Icmp6InTimeExcds", sh_count_t);
    ("Icmp6InParmProblems", sh_count_t);
    ("Icmp6InEchos", sh_count_t);
    ("Icmp6InEchoReplies", sh_count_t);
    ("Icmp6InGroupMembQueries", sh_count_t);
    ("Icmp6InGroupMembResponses", sh_count_t);
    ("Icmp6InGroupMembReductions", sh_count_t);
    ("Icmp6InRouterSolicits", sh_count_t);
    ("Icmp6InRouterAdvertisements", sh_count_t);
    ("Icmp6InNeighborSolicits", sh_count_t);
    ("Icmp6InNeighborAdvertisements", sh_count_t);
    ("Icmp6InRedirects", sh_count_t);
    ("Icmp6OutMsgs", sh_count_t);
    ("Icmp6OutDestUnreachs", sh_count_t);
    ("Icmp6OutPktTooBigs", sh_count_t);
    ("Icmp6OutTimeExcds", sh_count_t);
    ("Icmp6OutParmProblems", sh_count_t);
    ("Icmp6OutEchoReplies", sh_count_t);
    ("Icmp6OutRouterSolicits", sh_count_t);
    ("Icmp6OutNeighborSolicits", sh_count_t);
    ("Icmp6OutNeighborAdvertisements", sh_count_t);
    ("Icmp6OutRedirects", sh_count_t);
    ("Icmp6OutGroupMembResponses", sh_count_t);
    ("Icmp6OutGroupMembReductions", sh_count_t)
  ] [].
(** structs/atop_1_26.py:344-357 class UDPv6Stats. *)
Definition a1_26_UDPv6Stats : ctype := TStruct "atop_1_26.UDPv6Stats" [
    ("Udp6InDatagrams", sh_count_t);
    ("Udp6NoPorts", sh_count_t);
    ("Udp6InErrors", sh_count_t);
    ("Udp6OutDatagrams", sh_count_t)
  ] [].
(** structs/atop_1_26.py:360-376 class NETStat. *)
Definition a1_26_NETStat : ctype := TStruct "atop_1_26.NETStat" [
    ("ipv4", a1_26_IPv4Stats);
    ("icmpv4", a1_26_ICMPv4Stats);
    ("udpv4", a1_26_UDPv4Stats);
    ("ipv6", a1_26_IPv6Stats);
    ("icmpv6", a1_26_ICMPv6Stats);
    ("udpv6", a1_26_UDPv6Stats);
    ("tcp", a1_26_TCPStats)
  ] [].
(** structs/atop_1_26.py:379-396 class PerDSK. *)
Definition a1_26_PerDSK : ctype := TStruct "atop_1_26.PerDSK" [
    ("name", (TArr (TChar) a1_26_MAXDKNAM));
    ("nread", sh_count_t);
    ("nrsect", sh_count_t);
    ("nwrite", sh_count_t);
    ("nwsect", sh_count_t);
    ("io_ms", sh_count_t);
    ("avque", sh_count_t);
    ("cfuture", (TArr sh_count_t 4))
  ] [].
(** structs/atop_1_26.py:399-419 class DSKStat. *)
Definition a1_26_DSKStat : ctype := TStruct "atop_1_26.DSKStat" [
    ("ndsk", (TInt true 4));
    ("nmdd", (TInt true 4));
    ("nlvm", (TInt true 4));
    ("dsk", (TArr a1_26_PerDSK a1_26_MAXDSK));
    ("mdd", (TArr a1_26_PerDSK a1_26_MAXMDD));
    ("lvm", (TArr a1_26_PerDSK a1_26_MAXLVM))
  ] [("dsk", "ndsk"); ("mdd", "nmdd"); ("lvm", "nlvm")].
(** structs/atop_1_26.py:422-453 class PerIntf. *)
Definition a1_26_PerIntf : ctype := TStruct "atop_1_26.PerIntf" [
    ("name", (TArr (TChar) 16));
    ("rbyte", sh_count_t);
    ("rpack", sh_count_t);
    ("rerrs", sh_count_t);
    ("rdrop", sh_count_t);
    ("rfifo", sh_count_t);
    ("rframe", sh_count_t);
    ("rcompr", sh_count_t);
    ("rmultic", sh_count_t);
    ("rfuture", (TArr sh_count_t 4));
    ("sbyte", sh_count_t);
    ("spack", sh_count_t);
    ("serrs", sh_count_t);
    ("sdrop", sh_count_t);
    ("sfifo", sh_count_t);
    ("scollis", sh_count_t);
    ("scarrier", sh_count_t);
    ("scompr", sh_count_t);
    ("sfuture", (TArr sh_count_t 4));
    ("speed", (TInt true 8));
    ("duplex", (TChar));
    ("cfuture", (TArr sh_count_t 4))
  ] [].
(** structs/atop_1_26.py:456-470 class IntfStat. *)
Definition a1_26_IntfStat : ctype := TStruct "atop_1_26.IntfStat" [
    ("nrintf", (TInt true 4));
    ("intf", (TArr a1_26_PerIntf a1_26_MAXINTF))
  ] [("intf", "nrintf")].
(** structs/atop_1_26.py:473-487 class WWWStat. *)
Definition a1_26_WWWStat : ctype := TStruct "atop_1_26.WWWStat" [
    ("accesses", sh_count_t);
    ("totkbytes", sh_count_t);
    ("uptime", sh_count_t);
    ("bworkers", (TInt true 4));
    ("iworkers", (TInt true 4))
  ] [].
(** structs/atop_1_26.py:490-504 class SStat. *)
Definition a1_26_SStat : ctype := TStruct "atop_1_26.SStat" [
    ("cpu", a1_26_CPUStat);
    ("mem", a1_26_MemStat);
    ("net", a1_26_NETStat);
    ("intf", a1_26_IntfStat);
    ("dsk", a1_26_DSKStat);
    ("www", a1_26_WWWStat)
  ] [].
(** structs/atop_1_26.py:507-537 class GEN. *)
Definition a1_26_GEN : ctype := TStruct "atop_1_26.GEN" [
    ("pid", (TInt true 4));
    ("ppid", (TInt true 4));
    ("ruid", (TInt true 4));
    ("euid", (TInt true 4));
    ("suid", (TInt true 4));
    ("fsuid", (TInt true 4));
    ("rgid", (TInt true 4));
    ("egid", (TInt true 4));
    ("sgid", (TInt true 4));
    ("fsgid", (TInt true 4));
    ("nthr", (TInt true 4));
    ("name", (TArr (TChar) (a1_26_PNAMLEN + 1)));
    ("state", (TChar));
    ("excode", (TInt true 4));
    ("btime", sh_time_t);
    ("elaps", sh_time_t);
    ("cmdline", (TArr (TChar) (a1_26_CMDLEN + 1)));
    ("nthrslpi", (TInt true 4));
    ("nthrslpu", (TInt true 4));
    ("nthrrun", (TInt true 4));
    ("ifuture", (TArr (TInt true 4) 1))
  ] [].
(** structs/atop_1_26.py:540-559 class CPU. *)
Definition a1_26_CPU : ctype := TStruct "atop_1_26.CPU" [
    ("utime", sh_count_t);
    ("stime", sh_count_t);
    ("nice", (TInt true 4));
    ("prio", (TInt true 4));
    ("rtprio", (TInt true 4));
    ("policy", (TInt true 4));
    ("curcpu", (TInt true 4));
    ("sleepavg", (TInt true 4));
    ("ifuture", (TArr (TInt true 4) 4));
    ("cfuture", (TArr sh_count_t 4))
  ] [].
(** structs/atop_1_26.py:562-577 class DSK. *)
Definition a1_26_DSK : ctype := TStruct "atop_1_26.DSK" [
    ("rio", sh_count_t);
    ("rsz", sh_count_t);
    ("wio", sh_count_t);
    ("wsz", sh_count_t);
    ("cwsz", sh_count_t);
    ("cfuture", (TArr sh_count_t 4))
  ] [].
(** structs/atop_1_26.py:580-597 class MEM. *)
Definition a1_26_MEM : ctype := TStruct "atop_1_26.MEM" [
    ("minflt", sh_count_t);
    ("majflt", sh_count_t);
    ("shtext", sh_count_t);
    ("vmem", sh_count_t);
    ("rmem", sh_count_t);
    ("vgrow", sh_count_t);
    ("rgrow", sh_count_t);
    ("cfuture", (TArr sh_count_t 4))
  ] [].
(** structs/atop_1_26.py:600-620 class NET. *)
Definition a1_26_NET : ctype := TStruct "atop_1_26.NET" [
    ("tcpsnd", sh_count_t);
    ("tcpssz", sh_count_t);
    ("tcprcv", sh_count_t);
    ("tcprsz", sh_count_t);
    ("udpsnd", sh_count_t);
    ("udpssz", sh_count_t);
    ("udprcv", sh_count_t);
    ("udprsz", sh_count_t);
    ("rawsnd", sh_count_t);
    ("rawrcv", sh_count_t);
    ("cfuture", (TArr sh_count_t 4))
  ] [].
(** structs/atop_1_26.py:623-636 class PStat. *)
Definition a1_26_PStat : ctype := TStruct "atop_1_26.PStat" [
    ("gen", a1_26_GEN);
    ("cpu", a1_26_CPU);
    ("dsk", a1_26_DSK);
    ("mem", a1_26_MEM);
    ("net", a1_26_NET)
  ] [].
Definition a1_26_TStat : ctype := a1_26_PStat. (* structs/atop_1_26.py:640 *)
(** structs/atop_1_26.py:643-677 class Header: the struct part. *)
Definition a1_26_Header_fields : list (string * ctype) := [
    ("magic", (TInt false 4));
    ("aversion", (TInt false 2));
    ("future1", (TInt false 2));
    ("future2", (TInt false 2));
    ("rawheadlen", (TInt false 2));
    ("rawreclen", (TInt false 2));
    ("hertz", (TInt false 2));
    ("sfuture", (TArr (TInt false 2) 6));
    ("sstatlen", (TInt false 4));
    ("pstatlen", (TInt false 4));
    ("utsname", sh_UTSName);
    ("cfuture", (TArr (TChar) 8));
    ("pagesize", (TInt false 4));
    ("supportflags", (TInt true 4));
    ("osrel", (TInt true 4));
    ("osvers", (TInt true 4));
    ("ossub", (TInt true 4));
    ("ifuture", (TArr (TInt true 4) 6))
  ].
Definition a1_26_Header : ctype := TStruct "atop_1_26.Header" a1_26_Header_fields [].
(** structs/atop_1_26.py:643-677: the class attributes. *)
Definition a1_26_class : hclass := {|
  hc_version := "1.26";
  hc_header := a1_26_Header;
  hc_record := a1_26_Record;
  hc_sstat := a1_26_SStat;
  hc_tstat := a1_26_PStat;
  hc_cstat := None |}.
