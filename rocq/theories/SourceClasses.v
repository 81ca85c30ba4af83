(** * The struct modules of /repo/atoparser/structs, as data

    Generated by tools/gen_source.py from the files named below; do not edit. *)
From Coq Require Import List ZArith String.
From Verif Require Import PySyntax PyClasses.
Import ListNotations.
Local Open Scope string_scope.
Local Open Scope Z_scope.

(** atoparser/structs/shared.py *)
Definition text_shared : list top :=
  [
    (* shared.py:10-10 *) TopImport "ctypes" "ctypes" None;
    (* shared.py:17-17 *) TopAssign "time_t" (EAttr (EName "ctypes") "c_long");
    (* shared.py:20-20 *) TopAssign "count_t" (EAttr (EName "ctypes") "c_longlong");
    (* shared.py:23-23 *) TopAssign "off_t" (EAttr (EName "ctypes") "c_long");
    (* shared.py:24-24 *) TopAssign "pid_t" (EAttr (EName "ctypes") "c_int");
    (* shared.py:27-89 *) TopClass "HeaderMixin" [] [
      CDef "check_compatibility";
      CDef "major_version";
      CDef "minor_version";
      CDef "semantic_version"];
    (* shared.py:92-107 *) TopClass "UTSName" [(EAttr (EName "ctypes") "Structure")] [
      CAssign "_fields_" (EList [(ETuple [(EStr "sysname"); (EBin OpMul (EAttr (EName "ctypes") "c_char") (EInt 65))]); (ETuple [(EStr "nodename"); (EBin OpMul (EAttr (EName "ctypes") "c_char") (EInt 65))]); (ETuple [(EStr "release"); (EBin OpMul (EAttr (EName "ctypes") "c_char") (EInt 65))]); (ETuple [(EStr "version"); (EBin OpMul (EAttr (EName "ctypes") "c_char") (EInt 65))]); (ETuple [(EStr "machine"); (EBin OpMul (EAttr (EName "ctypes") "c_char") (EInt 65))]); (ETuple [(EStr "domain"); (EBin OpMul (EAttr (EName "ctypes") "c_char") (EInt 65))])])]].

(** atoparser/structs/atop_1_26.py *)
Definition text_atop_1_26 : list top :=
  [
    (* atop_1_26.py:15-15 *) TopImport "ctypes" "ctypes" None;
    (* atop_1_26.py:17-17 *) TopImport "HeaderMixin" "atoparser.structs.shared" (Some "HeaderMixin");
    (* atop_1_26.py:18-18 *) TopImport "UTSName" "atoparser.structs.shared" (Some "UTSName");
    (* atop_1_26.py:19-19 *) TopImport "count_t" "atoparser.structs.shared" (Some "count_t");
    (* atop_1_26.py:20-20 *) TopImport "time_t" "atoparser.structs.shared" (Some "time_t");
    (* atop_1_26.py:27-27 *) TopAssign "ACCTACTIVE" (EInt 1);
    (* atop_1_26.py:28-28 *) TopAssign "PATCHSTAT" (EInt 2);
    (* atop_1_26.py:29-29 *) TopAssign "IOSTAT" (EInt 4);
    (* atop_1_26.py:30-30 *) TopAssign "PATCHACCT" (EInt 8);
    (* atop_1_26.py:33-33 *) TopAssign "PNAMLEN" (EInt 15);
    (* atop_1_26.py:34-34 *) TopAssign "CMDLEN" (EInt 150);
    (* atop_1_26.py:37-37 *) TopAssign "MAXCPU" (EInt 64);
    (* atop_1_26.py:38-38 *) TopAssign "MAXDSK" (EInt 256);
    (* atop_1_26.py:39-39 *) TopAssign "MAXLVM" (EInt 256);
    (* atop_1_26.py:40-40 *) TopAssign "MAXMDD" (EInt 128);
    (* atop_1_26.py:41-41 *) TopAssign "MAXDKNAM" (EInt 32);
    (* atop_1_26.py:42-42 *) TopAssign "MAXINTF" (EInt 32);
    (* atop_1_26.py:45-67 *) TopClass "Record" [(EAttr (EName "ctypes") "Structure")] [
      CAssign "_fields_" (EList [(ETuple [(EStr "curtime"); (EName "time_t")]); (ETuple [(EStr "flags"); (EAttr (EName "ctypes") "c_ushort")]); (ETuple [(EStr "sfuture"); (EBin OpMul (EAttr (EName "ctypes") "c_ushort") (EInt 3))]); (ETuple [(EStr "scomplen"); (EAttr (EName "ctypes") "c_uint")]); (ETuple [(EStr "pcomplen"); (EAttr (EName "ctypes") "c_uint")]); (ETuple [(EStr "interval"); (EAttr (EName "ctypes") "c_uint")]); (ETuple [(EStr "nlist"); (EAttr (EName "ctypes") "c_uint")]); (ETuple [(EStr "npresent"); (EAttr (EName "ctypes") "c_uint")]); (ETuple [(EStr "nexit"); (EAttr (EName "ctypes") "c_uint")]); (ETuple [(EStr "ntrun"); (EAttr (EName "ctypes") "c_uint")]); (ETuple [(EStr "ntslpi"); (EAttr (EName "ctypes") "c_uint")]); (ETuple [(EStr "ntslpu"); (EAttr (EName "ctypes") "c_uint")]); (ETuple [(EStr "nzombie"); (EAttr (EName "ctypes") "c_uint")]); (ETuple [(EStr "ifuture"); (EBin OpMul (EAttr (EName "ctypes") "c_uint") (EInt 6))])])];
    (* atop_1_26.py:70-94 *) TopClass "MemStat" [(EAttr (EName "ctypes") "Structure")] [
      CAssign "_fields_" (EList [(ETuple [(EStr "physmem"); (EName "count_t")]); (ETuple [(EStr "freemem"); (EName "count_t")]); (ETuple [(EStr "buffermem"); (EName "count_t")]); (ETuple [(EStr "slabmem"); (EName "count_t")]); (ETuple [(EStr "cachemem"); (EName "count_t")]); (ETuple [(EStr "cachedrt"); (EName "count_t")]); (ETuple [(EStr "totswap"); (EName "count_t")]); (ETuple [(EStr "freeswap"); (EName "count_t")]); (ETuple [(EStr "pgscans"); (EName "count_t")]); (ETuple [(EStr "allocstall"); (EName "count_t")]); (ETuple [(EStr "swouts"); (EName "count_t")]); (ETuple [(EStr "swins"); (EName "count_t")]); (ETuple [(EStr "commitlim"); (EName "count_t")]); (ETuple [(EStr "committed"); (EName "count_t")]); (ETuple [(EStr "cfuture"); (EBin OpMul (EName "count_t") (EInt 4))])])];
    (* atop_1_26.py:97-109 *) TopClass "FreqCnt" [(EAttr (EName "ctypes") "Structure")] [
      CAssign "_fields_" (EList [(ETuple [(EStr "maxfreq"); (EName "count_t")]); (ETuple [(EStr "cnt"); (EName "count_t")]); (ETuple [(EStr "ticks"); (EName "count_t")])])];
    (* atop_1_26.py:112-133 *) TopClass "PerCPU" [(EAttr (EName "ctypes") "Structure")] [
      CAssign "_fields_" (EList [(ETuple [(EStr "cpunr"); (EAttr (EName "ctypes") "c_int")]); (ETuple [(EStr "stime"); (EName "count_t")]); (ETuple [(EStr "utime"); (EName "count_t")]); (ETuple [(EStr "ntime"); (EName "count_t")]); (ETuple [(EStr "itime"); (EName "count_t")]); (ETuple [(EStr "wtime"); (EName "count_t")]); (ETuple [(EStr "Itime"); (EName "count_t")]); (ETuple [(EStr "Stime"); (EName "count_t")]); (ETuple [(EStr "steal"); (EName "count_t")]); (ETuple [(EStr "guest"); (EName "count_t")]); (ETuple [(EStr "freqcnt"); (EName "FreqCnt")]); (ETuple [(EStr "cfuture"); (EBin OpMul (EName "count_t") (EInt 1))])])];
    (* atop_1_26.py:136-156 *) TopClass "CPUStat" [(EAttr (EName "ctypes") "Structure")] [
      CAssign "_fields_" (EList [(ETuple [(EStr "nrcpu"); (EName "count_t")]); (ETuple [(EStr "devint"); (EName "count_t")]); (ETuple [(EStr "csw"); (EName "count_t")]); (ETuple [(EStr "nprocs"); (EName "count_t")]); (ETuple [(EStr "lavg1"); (EAttr (EName "ctypes") "c_float")]); (ETuple [(EStr "lavg5"); (EAttr (EName "ctypes") "c_float")]); (ETuple [(EStr "lavg15"); (EAttr (EName "ctypes") "c_float")]); (ETuple [(EStr "cfuture"); (EBin OpMul (EName "count_t") (EInt 4))]); (ETuple [(EStr "all"); (EName "PerCPU")]); (ETuple [(EStr "cpu"); (EBin OpMul (EName "PerCPU") (EName "MAXCPU"))])]);
      CAssign "fields_limiters" (EDict [((EStr "cpu"), (EStr "nrcpu"))])];
    (* atop_1_26.py:159-187 *) TopClass "IPv4Stats" [(EAttr (EName "ctypes") "Structure")] [
      CAssign "_fields_" (EList [(ETuple [(EStr "Forwarding"); (EName "count_t")]); (ETuple [(EStr "DefaultTTL"); (EName "count_t")]); (ETuple [(EStr "InReceives"); (EName "count_t")]); (ETuple [(EStr "InHdrErrors"); (EName "count_t")]); (ETuple [(EStr "InAddrErrors"); (EName "count_t")]); (ETuple [(EStr "ForwDatagrams"); (EName "count_t")]); (ETuple [(EStr "InUnknownProtos"); (EName "count_t")]); (ETuple [(EStr "InDiscards"); (EName "count_t")]); (ETuple [(EStr "InDelivers"); (EName "count_t")]); (ETuple [(EStr "OutRequests"); (EName "count_t")]); (ETuple [(EStr "OutDiscards"); (EName "count_t")]); (ETuple [(EStr "OutNoRoutes"); (EName "count_t")]); (ETuple [(EStr "ReasmTimeout"); (EName "count_t")]); (ETuple [(EStr "ReasmReqds"); (EName "count_t")]); (ETuple [(EStr "ReasmOKs"); (EName "count_t")]); (ETuple [(EStr "ReasmFails"); (EName "count_t")]); (ETuple [(EStr "FragOKs"); (EName "count_t")]); (ETuple [(EStr "FragFails"); (EName "count_t")]); (ETuple [(EStr "FragCreates"); (EName "count_t")])])];
    (* atop_1_26.py:190-225 *) TopClass "ICMPv4Stats" [(EAttr (EName "ctypes") "Structure")] [
      CAssign "_fields_" (EList [(ETuple [(EStr "InMsgs"); (EName "count_t")]); (ETuple [(EStr "InErrors"); (EName "count_t")]); (ETuple [(EStr "InDestUnreachs"); (EName "count_t")]); (ETuple [(EStr "InTimeExcds"); (EName "count_t")]); (ETuple [(EStr "InParmProbs"); (EName "count_t")]); (ETuple [(EStr "InSrcQuenchs"); (EName "count_t")]); (ETuple [(EStr "InRedirects"); (EName "count_t")]); (ETuple [(EStr "InEchos"); (EName "count_t")]); (ETuple [(EStr "InEchoReps"); (EName "count_t")]); (ETuple [(EStr "InTimestamps"); (EName "count_t")]); (ETuple [(EStr "InTimestampReps"); (EName "count_t")]); (ETuple [(EStr "InAddrMasks"); (EName "count_t")]); (ETuple [(EStr "InAddrMaskReps"); (EName "count_t")]); (ETuple [(EStr "OutMsgs"); (EName "count_t")]); (ETuple [(EStr "OutErrors"); (EName "count_t")]); (ETuple [(EStr "OutDestUnreachs"); (EName "count_t")]); (ETuple [(EStr "OutTimeExcds"); (EName "count_t")]); (ETuple [(EStr "OutParmProbs"); (EName "count_t")]); (ETuple [(EStr "OutSrcQuenchs"); (EName "count_t")]); (ETuple [(EStr "OutRedirects"); (EName "count_t")]); (ETuple [(EStr "OutEchos"); (EName "count_t")]); (ETuple [(EStr "OutEchoReps"); (EName "count_t")]); (ETuple [(EStr "OutTimestamps"); (EName "count_t")]); (ETuple [(EStr "OutTimestampReps"); (EName "count_t")]); (ETuple [(EStr "OutAddrMasks"); (EName "count_t")]); (ETuple [(EStr "OutAddrMaskReps"); (EName "count_t")])])];
    (* atop_1_26.py:228-241 *) TopClass "UDPv4Stats" [(EAttr (EName "ctypes") "Structure")] [
      CAssign "_fields_" (EList [(ETuple [(EStr "InDatagrams"); (EName "count_t")]); (ETuple [(EStr "NoPorts"); (EName "count_t")]); (ETuple [(EStr "InErrors"); (EName "count_t")]); (ETuple [(EStr "OutDatagrams"); (EName "count_t")])])];
    (* atop_1_26.py:244-267 *) TopClass "TCPStats" [(EAttr (EName "ctypes") "Structure")] [
      CAssign "_fields_" (EList [(ETuple [(EStr "RtoAlgorithm"); (EName "count_t")]); (ETuple [(EStr "RtoMin"); (EName "count_t")]); (ETuple [(EStr "RtoMax"); (EName "count_t")]); (ETuple [(EStr "MaxConn"); (EName "count_t")]); (ETuple [(EStr "ActiveOpens"); (EName "count_t")]); (ETuple [(EStr "PassiveOpens"); (EName "count_t")]); (ETuple [(EStr "AttemptFails"); (EName "count_t")]); (ETuple [(EStr "EstabResets"); (EName "count_t")]); (ETuple [(EStr "CurrEstab"); (EName "count_t")]); (ETuple [(EStr "InSegs"); (EName "count_t")]); (ETuple [(EStr "OutSegs"); (EName "count_t")]); (ETuple [(EStr "RetransSegs"); (EName "count_t")]); (ETuple [(EStr "InErrs"); (EName "count_t")]); (ETuple [(EStr "OutRsts"); (EName "count_t")])])];
    (* atop_1_26.py:270-301 *) TopClass "IPv6Stats" [(EAttr (EName "ctypes") "Structure")] [
      CAssign "_fields_" (EList [(ETuple [(EStr "Ip6InReceives"); (EName "count_t")]); (ETuple [(EStr "Ip6InHdrErrors"); (EName "count_t")]); (ETuple [(EStr "Ip6InTooBigErrors"); (EName "count_t")]); (ETuple [(EStr "Ip6InNoRoutes"); (EName "count_t")]); (ETuple [(EStr "Ip6InAddrErrors"); (EName "count_t")]); (ETuple [(EStr "Ip6InUnknownProtos"); (EName "count_t")]); (ETuple [(EStr "Ip6InTruncatedPkts"); (EName "count_t")]); (ETuple [(EStr "Ip6InDiscards"); (EName "count_t")]); (ETuple [(EStr "Ip6InDelivers"); (EName "count_t")]); (ETuple [(EStr "Ip6OutForwDatagrams"); (EName "count_t")]); (ETuple [(EStr "Ip6OutRequests"); (EName "count_t")]); (ETuple [(EStr "Ip6OutDiscards"); (EName "count_t")]); (ETuple [(EStr "Ip6OutNoRoutes"); (EName "count_t")]); (ETuple [(EStr "Ip6ReasmTimeout"); (EName "count_t")]); (ETuple [(EStr "Ip6ReasmReqds"); (EName "count_t")]); (ETuple [(EStr "Ip6ReasmOKs"); (EName "count_t")]); (ETuple [(EStr "Ip6ReasmFails"); (EName "count_t")]); (ETuple [(EStr "Ip6FragOKs"); (EName "count_t")]); (ETuple [(EStr "Ip6FragFails"); (EName "count_t")]); (ETuple [(EStr "Ip6FragCreates"); (EName "count_t")]); (ETuple [(EStr "Ip6InMcastPkts"); (EName "count_t")]); (ETuple [(EStr "Ip6OutMcastPkts"); (EName "count_t")])])];
    (* atop_1_26.py:304-341 *) TopClass "ICMPv6Stats" [(EAttr (EName "ctypes") "Structure")] [
      CAssign "_fields_" (EList [(ETuple [(EStr "Icmp6InMsgs"); (EName "count_t")]); (ETuple [(EStr "Icmp6InErrors"); (EName "count_t")]); (ETuple [(EStr "Icmp6InDestUnreachs"); (EName "count_t")]); (ETuple [(EStr "Icmp6InPktTooBigs"); (EName "count_t")]); (ETuple [(EStr "Icmp6InTimeExcds"); (EName "count_t")]); (ETuple [(EStr "Icmp6InParmProblems"); (EName "count_t")]); (ETuple [(EStr "Icmp6InEchos"); (EName "count_t")]); (ETuple [(EStr "Icmp6InEchoReplies"); (EName "count_t")]); (ETuple [(EStr "Icmp6InGroupMembQueries"); (EName "count_t")]); (ETuple [(EStr "Icmp6InGroupMembResponses"); (EName "count_t")]); (ETuple [(EStr "Icmp6InGroupMembReductions"); (EName "count_t")]); (ETuple [(EStr "Icmp6InRouterSolicits"); (EName "count_t")]); (ETuple [(EStr "Icmp6InRouterAdvertisements"); (EName "count_t")]); (ETuple [(EStr "Icmp6InNeighborSolicits"); (EName "count_t")]); (ETuple [(EStr "Icmp6InNeighborAdvertisements"); (EName "count_t")]); (ETuple [(EStr "Icmp6InRedirects"); (EName "count_t")]); (ETuple [(EStr "Icmp6OutMsgs"); (EName "count_t")]); (ETuple [(EStr "Icmp6OutDestUnreachs"); (EName "count_t")]); (ETuple [(EStr "Icmp6OutPktTooBigs"); (EName "count_t")]); (ETuple [(EStr "Icmp6OutTimeExcds"); (EName "count_t")]); (ETuple [(EStr "Icmp6OutParmProblems"); (EName "count_t")]); (ETuple [(EStr "Icmp6OutEchoReplies"); (EName "count_t")]); (ETuple [(EStr "Icmp6OutRouterSolicits"); (EName "count_t")]); (ETuple [(EStr "Icmp6OutNeighborSolicits"); (EName "count_t")]); (ETuple [(EStr "Icmp6OutNeighborAdvertisements"); (EName "count_t")]); (ETuple [(EStr "Icmp6OutRedirects"); (EName "count_t")]); (ETuple [(EStr "Icmp6OutGroupMembResponses"); (EName "count_t")]); (ETuple [(EStr "Icmp6OutGroupMembReductions"); (EName "count_t")])])];
    (* atop_1_26.py:344-357 *) TopClass "UDPv6Stats" [(EAttr (EName "ctypes") "Structure")] [
      CAssign "_fields_" (EList [(ETuple [(EStr "Udp6InDatagrams"); (EName "count_t")]); (ETuple [(EStr "Udp6NoPorts"); (EName "count_t")]); (ETuple [(EStr "Udp6InErrors"); (EName "count_t")]); (ETuple [(EStr "Udp6OutDatagrams"); (EName "count_t")])])];
    (* atop_1_26.py:360-376 *) TopClass "NETStat" [(EAttr (EName "ctypes") "Structure")] [
      CAssign "_fields_" (EList [(ETuple [(EStr "ipv4"); (EName "IPv4Stats")]); (ETuple [(EStr "icmpv4"); (EName "ICMPv4Stats")]); (ETuple [(EStr "udpv4"); (EName "UDPv4Stats")]); (ETuple [(EStr "ipv6"); (EName "IPv6Stats")]); (ETuple [(EStr "icmpv6"); (EName "ICMPv6Stats")]); (ETuple [(EStr "udpv6"); (EName "UDPv6Stats")]); (ETuple [(EStr "tcp"); (EName "TCPStats")])])];
    (* atop_1_26.py:379-396 *) TopClass "PerDSK" [(EAttr (EName "ctypes") "Structure")] [
      CAssign "_fields_" (EList [(ETuple [(EStr "name"); (EBin OpMul (EAttr (EName "ctypes") "c_char") (EName "MAXDKNAM"))]); (ETuple [(EStr "nread"); (EName "count_t")]); (ETuple [(EStr "nrsect"); (EName "count_t")]); (ETuple [(EStr "nwrite"); (EName "count_t")]); (ETuple [(EStr "nwsect"); (EName "count_t")]); (ETuple [(EStr "io_ms"); (EName "count_t")]); (ETuple [(EStr "avque"); (EName "count_t")]); (ETuple [(EStr "cfuture"); (EBin OpMul (EName "count_t") (EInt 4))])])];
    (* atop_1_26.py:399-419 *) TopClass "DSKStat" [(EAttr (EName "ctypes") "Structure")] [
      CAssign "_fields_" (EList [(ETuple [(EStr "ndsk"); (EAttr (EName "ctypes") "c_int")]); (ETuple [(EStr "nmdd"); (EAttr (EName "ctypes") "c_int")]); (ETuple [(EStr "nlvm"); (EAttr (EName "ctypes") "c_int")]); (ETuple [(EStr "dsk"); (EBin OpMul (EName "PerDSK") (EName "MAXDSK"))]); (ETuple [(EStr "mdd"); (EBin OpMul (EName "PerDSK") (EName "MAXMDD"))]); (ETuple [(EStr "lvm"); (EBin OpMul (EName "PerDSK") (EName "MAXLVM"))])]);
      CAssign "fields_limiters" (EDict [((EStr "dsk"), (EStr "ndsk")); ((EStr "mdd"), (EStr "nmdd")); ((EStr "lvm"), (EStr "nlvm"))])];
    (* atop_1_26.py:422-453 *) TopClass "PerIntf" [(EAttr (EName "ctypes") "Structure")] [
      CAssign "_fields_" (EList [(ETuple [(EStr "name"); (EBin OpMul (EAttr (EName "ctypes") "c_char") (EInt 16))]); (ETuple [(EStr "rbyte"); (EName "count_t")]); (ETuple [(EStr "rpack"); (EName "count_t")]); (ETuple [(EStr "rerrs"); (EName "count_t")]); (ETuple [(EStr "rdrop"); (EName "count_t")]); (ETuple [(EStr "rfifo"); (EName "count_t")]); (ETuple [(EStr "rframe"); (EName "count_t")]); (ETuple [(EStr "rcompr"); (EName "count_t")]); (ETuple [(EStr "rmultic"); (EName "count_t")]); (ETuple [(EStr "rfuture"); (EBin OpMul (EName "count_t") (EInt 4))]); (ETuple [(EStr "sbyte"); (EName "count_t")]); (ETuple [(EStr "spack"); (EName "count_t")]); (ETuple [(EStr "serrs"); (EName "count_t")]); (ETuple [(EStr "sdrop"); (EName "count_t")]); (ETuple [(EStr "sfifo"); (EName "count_t")]); (ETuple [(EStr "scollis"); (EName "count_t")]); (ETuple [(EStr "scarrier"); (EName "count_t")]); (ETuple [(EStr "scompr"); (EName "count_t")]); (ETuple [(EStr "sfuture"); (EBin OpMul (EName "count_t") (EInt 4))]); (ETuple [(EStr "speed"); (EAttr (EName "ctypes") "c_long")]); (ETuple [(EStr "duplex"); (EAttr (EName "ctypes") "c_char")]); (ETuple [(EStr "cfuture"); (EBin OpMul (EName "count_t") (EInt 4))])])];
    (* atop_1_26.py:456-470 *) TopClass "IntfStat" [(EAttr (EName "ctypes") "Structure")] [
      CAssign "_fields_" (EList [(ETuple [(EStr "nrintf"); (EAttr (EName "ctypes") "c_int")]); (ETuple [(EStr "intf"); (EBin OpMul (EName "PerIntf") (EName "MAXINTF"))])]);
      CAssign "fields_limiters" (EDict [((EStr "intf"), (EStr "nrintf"))])];
    (* atop_1_26.py:473-487 *) TopClass "WWWStat" [(EAttr (EName "ctypes") "Structure")] [
      CAssign "_fields_" (EList [(ETuple [(EStr "accesses"); (EName "count_t")]); (ETuple [(EStr "totkbytes"); (EName "count_t")]); (ETuple [(EStr "uptime"); (EName "count_t")]); (ETuple [(EStr "bworkers"); (EAttr (EName "ctypes") "c_int")]); (ETuple [(EStr "iworkers"); (EAttr (EName "ctypes") "c_int")])])];
    (* atop_1_26.py:490-504 *) TopClass "SStat" [(EAttr (EName "ctypes") "Structure")] [
      CAssign "_fields_" (EList [(ETuple [(EStr "cpu"); (EName "CPUStat")]); (ETuple [(EStr "mem"); (EName "MemStat")]); (ETuple [(EStr "net"); (EName "NETStat")]); (ETuple [(EStr "intf"); (EName "IntfStat")]); (ETuple [(EStr "dsk"); (EName "DSKStat")]); (ETuple [(EStr "www"); (EName "WWWStat")])])];
    (* atop_1_26.py:507-537 *) TopClass "GEN" [(EAttr (EName "ctypes") "Structure")] [
      CAssign "_fields_" (EList [(ETuple [(EStr "pid"); (EAttr (EName "ctypes") "c_int")]); (ETuple [(EStr "ppid"); (EAttr (EName "ctypes") "c_int")]); (ETuple [(EStr "ruid"); (EAttr (EName "ctypes") "c_int")]); (ETuple [(EStr "euid"); (EAttr (EName "ctypes") "c_int")]); (ETuple [(EStr "suid"); (EAttr (EName "ctypes") "c_int")]); (ETuple [(EStr "fsuid"); (EAttr (EName "ctypes") "c_int")]); (ETuple [(EStr "rgid"); (EAttr (EName "ctypes") "c_int")]); (ETuple [(EStr "egid"); (EAttr (EName "ctypes") "c_int")]); (ETuple [(EStr "sgid"); (EAttr (EName "ctypes") "c_int")]); (ETuple [(EStr "fsgid"); (EAttr (EName "ctypes") "c_int")]); (ETuple [(EStr "nthr"); (EAttr (EName "ctypes") "c_int")]); (ETuple [(EStr "name"); (EBin OpMul (EAttr (EName "ctypes") "c_char") (EBin OpAdd (EName "PNAMLEN") (EInt 1)))]); (ETuple [(EStr "state"); (EAttr (EName "ctypes") "c_char")]); (ETuple [(EStr "excode"); (EAttr (EName "ctypes") "c_int")]); (ETuple [(EStr "btime"); (EName "time_t")]); (ETuple [(EStr "elaps"); (EName "time_t")]); (ETuple [(EStr "cmdline"); (EBin OpMul (EAttr (EName "ctypes") "c_char") (EBin OpAdd (EName "CMDLEN") (EInt 1)))]); (ETuple [(EStr "nthrslpi"); (EAttr (EName "ctypes") "c_int")]); (ETuple [(EStr "nthrslpu"); (EAttr (EName "ctypes") "c_int")]); (ETuple [(EStr "nthrrun"); (EAttr (EName "ctypes") "c_int")]); (ETuple [(EStr "ifuture"); (EBin OpMul (EAttr (EName "ctypes") "c_int") (EInt 1))])])];
    (* atop_1_26.py:540-559 *) TopClass "CPU" [(EAttr (EName "ctypes") "Structure")] [
      CAssign "_fields_" (EList [(ETuple [(EStr "utime"); (EName "count_t")]); (ETuple [(EStr "stime"); (EName "count_t")]); (ETuple [(EStr "nice"); (EAttr (EName "ctypes") "c_int")]); (ETuple [(EStr "prio"); (EAttr (EName "ctypes") "c_int")]); (ETuple [(EStr "rtprio"); (EAttr (EName "ctypes") "c_int")]); (ETuple [(EStr "policy"); (EAttr (EName "ctypes") "c_int")]); (ETuple [(EStr "curcpu"); (EAttr (EName "ctypes") "c_int")]); (ETuple [(EStr "sleepavg"); (EAttr (EName "ctypes") "c_int")]); (ETuple [(EStr "ifuture"); (EBin OpMul (EAttr (EName "ctypes") "c_int") (EInt 4))]); (ETuple [(EStr "cfuture"); (EBin OpMul (EName "count_t") (EInt 4))])])];
    (* atop_1_26.py:562-577 *) TopClass "DSK" [(EAttr (EName "ctypes") "Structure")] [
      CAssign "_fields_" (EList [(ETuple [(EStr "rio"); (EName "count_t")]); (ETuple [(EStr "rsz"); (EName "count_t")]); (ETuple [(EStr "wio"); (EName "count_t")]); (ETuple [(EStr "wsz"); (EName "count_t")]); (ETuple [(EStr "cwsz"); (EName "count_t")]); (ETuple [(EStr "cfuture"); (EBin OpMul (EName "count_t") (EInt 4))])])];
    (* atop_1_26.py:580-597 *) TopClass "MEM" [(EAttr (EName "ctypes") "Structure")] [
      CAssign "_fields_" (EList [(ETuple [(EStr "minflt"); (EName "count_t")]); (ETuple [(EStr "majflt"); (EName "count_t")]); (ETuple [(EStr "shtext"); (EName "count_t")]); (ETuple [(EStr "vmem"); (EName "count_t")]); (ETuple [(EStr "rmem"); (EName "count_t")]); (ETuple [(EStr "vgrow"); (EName "count_t")]); (ETuple [(EStr "rgrow"); (EName "count_t")]); (ETuple [(EStr "cfuture"); (EBin OpMul (EName "count_t") (EInt 4))])])];
    (* atop_1_26.py:600-620 *) TopClass "NET" [(EAttr (EName "ctypes") "Structure")] [
      CAssign "_fields_" (EList [(ETuple [(EStr "tcpsnd"); (EName "count_t")]); (ETuple [(EStr "tcpssz"); (EName "count_t")]); (ETuple [(EStr "tcprcv"); (EName "count_t")]); (ETuple [(EStr "tcprsz"); (EName "count_t")]); (ETuple [(EStr "udpsnd"); (EName "count_t")]); (ETuple [(EStr "udpssz"); (EName "count_t")]); (ETuple [(EStr "udprcv"); (EName "count_t")]); (ETuple [(EStr "udprsz"); (EName "count_t")]); (ETuple [(EStr "rawsnd"); (EName "count_t")]); (ETuple [(EStr "rawrcv"); (EName "count_t")]); (ETuple [(EStr "cfuture"); (EBin OpMul (EName "count_t") (EInt 4))])])];
    (* atop_1_26.py:623-636 *) TopClass "PStat" [(EAttr (EName "ctypes") "Structure")] [
      CAssign "_fields_" (EList [(ETuple [(EStr "gen"); (EName "GEN")]); (ETuple [(EStr "cpu"); (EName "CPU")]); (ETuple [(EStr "dsk"); (EName "DSK")]); (ETuple [(EStr "mem"); (EName "MEM")]); (ETuple [(EStr "net"); (EName "NET")])])];
    (* atop_1_26.py:640-640 *) TopAssign "TStat" (EName "PStat");
    (* atop_1_26.py:643-677 *) TopClass "Header" [(EAttr (EName "ctypes") "Structure"); (EName "HeaderMixin")] [
      CAssign "_fields_" (EList [(ETuple [(EStr "magic"); (EAttr (EName "ctypes") "c_uint")]); (ETuple [(EStr "aversion"); (EAttr (EName "ctypes") "c_ushort")]); (ETuple [(EStr "future1"); (EAttr (EName "ctypes") "c_ushort")]); (ETuple [(EStr "future2"); (EAttr (EName "ctypes") "c_ushort")]); (ETuple [(EStr "rawheadlen"); (EAttr (EName "ctypes") "c_ushort")]); (ETuple [(EStr "rawreclen"); (EAttr (EName "ctypes") "c_ushort")]); (ETuple [(EStr "hertz"); (EAttr (EName "ctypes") "c_ushort")]); (ETuple [(EStr "sfuture"); (EBin OpMul (EAttr (EName "ctypes") "c_ushort") (EInt 6))]); (ETuple [(EStr "sstatlen"); (EAttr (EName "ctypes") "c_uint")]); (ETuple [(EStr "pstatlen"); (EAttr (EName "ctypes") "c_uint")]); (ETuple [(EStr "utsname"); (EName "UTSName")]); (ETuple [(EStr "cfuture"); (EBin OpMul (EAttr (EName "ctypes") "c_char") (EInt 8))]); (ETuple [(EStr "pagesize"); (EAttr (EName "ctypes") "c_uint")]); (ETuple [(EStr "supportflags"); (EAttr (EName "ctypes") "c_int")]); (ETuple [(EStr "osrel"); (EAttr (EName "ctypes") "c_int")]); (ETuple [(EStr "osvers"); (EAttr (EName "ctypes") "c_int")]); (ETuple [(EStr "ossub"); (EAttr (EName "ctypes") "c_int")]); (ETuple [(EStr "ifuture"); (EBin OpMul (EAttr (EName "ctypes") "c_int") (EInt 6))])]);
      CAssign "supported_version" (EStr "1.26");
      CAssign "Record" (EName "Record");
      CAssign "SStat" (EName "SStat");
      CAssign "PStat" (EName "PStat");
      CAssign "TStat" (EName "PStat");
      CAssign "CStat" ENone;
      CAssign "CGChainer" ENone]].

(** atoparser/structs/atop_2_3.py *)
Definition text_atop_2_3 : list top :=
  [
    (* atop_2_3.py:16-16 *) TopImport "ctypes" "ctypes" None;
    (* atop_2_3.py:18-18 *) TopImport "atop_1_26" "atoparser.structs" (Some "atop_1_26");
    (* atop_2_3.py:19-19 *) TopImport "HeaderMixin" "atoparser.structs.shared" (Some "HeaderMixin");
    (* atop_2_3.py:20-20 *) TopImport "UTSName" "atoparser.structs.shared" (Some "UTSName");
    (* atop_2_3.py:21-21 *) TopImport "count_t" "atoparser.structs.shared" (Some "count_t");
    (* atop_2_3.py:22-22 *) TopImport "time_t" "atoparser.structs.shared" (Some "time_t");
    (* atop_2_3.py:29-29 *) TopAssign "ACCTACTIVE" (EInt 1);
    (* atop_2_3.py:30-30 *) TopAssign "IOSTAT" (EInt 4);
    (* atop_2_3.py:31-31 *) TopAssign "NETATOP" (EInt 16);
    (* atop_2_3.py:32-32 *) TopAssign "NETATOPD" (EInt 32);
    (* atop_2_3.py:33-33 *) TopAssign "DOCKSTAT" (EInt 64);
    (* atop_2_3.py:36-36 *) TopAssign "PNAMLEN" (EInt 15);
    (* atop_2_3.py:37-37 *) TopAssign "CMDLEN" (EInt 255);
    (* atop_2_3.py:40-40 *) TopAssign "MAXCPU" (EInt 2048);
    (* atop_2_3.py:41-41 *) TopAssign "MAXDSK" (EInt 1024);
    (* atop_2_3.py:42-42 *) TopAssign "MAXLVM" (EInt 2048);
    (* atop_2_3.py:43-43 *) TopAssign "MAXMDD" (EInt 256);
    (* atop_2_3.py:44-44 *) TopAssign "MAXINTF" (EInt 128);
    (* atop_2_3.py:45-45 *) TopAssign "MAXCONTAINER" (EInt 128);
    (* atop_2_3.py:46-46 *) TopAssign "MAXNFSMOUNT" (EInt 64);
    (* atop_2_3.py:47-47 *) TopAssign "MAXDKNAM" (EInt 32);
    (* atop_2_3.py:50-75 *) TopClass "Record" [(EAttr (EName "ctypes") "Structure")] [
      CAssign "_fields_" (EList [(ETuple [(EStr "curtime"); (EName "time_t")]); (ETuple [(EStr "flags"); (EAttr (EName "ctypes") "c_ushort")]); (ETuple [(EStr "sfuture"); (EBin OpMul (EAttr (EName "ctypes") "c_ushort") (EInt 3))]); (ETuple [(EStr "scomplen"); (EAttr (EName "ctypes") "c_uint")]); (ETuple [(EStr "pcomplen"); (EAttr (EName "ctypes") "c_uint")]); (ETuple [(EStr "interval"); (EAttr (EName "ctypes") "c_uint")]); (ETuple [(EStr "ndeviat"); (EAttr (EName "ctypes") "c_uint")]); (ETuple [(EStr "nactproc"); (EAttr (EName "ctypes") "c_uint")]); (ETuple [(EStr "ntask"); (EAttr (EName "ctypes") "c_uint")]); (ETuple [(EStr "totproc"); (EAttr (EName "ctypes") "c_uint")]); (ETuple [(EStr "totrun"); (EAttr (EName "ctypes") "c_uint")]); (ETuple [(EStr "totslpi"); (EAttr (EName "ctypes") "c_uint")]); (ETuple [(EStr "totslpu"); (EAttr (EName "ctypes") "c_uint")]); (ETuple [(EStr "totzomb"); (EAttr (EName "ctypes") "c_uint")]); (ETuple [(EStr "nexit"); (EAttr (EName "ctypes") "c_uint")]); (ETuple [(EStr "noverflow"); (EAttr (EName "ctypes") "c_uint")]); (ETuple [(EStr "ifuture"); (EBin OpMul (EAttr (EName "ctypes") "c_uint") (EInt 6))])])];
    (* atop_2_3.py:78-111 *) TopClass "MemStat" [(EAttr (EName "ctypes") "Structure")] [
      CAssign "_fields_" (EList [(ETuple [(EStr "physmem"); (EName "count_t")]); (ETuple [(EStr "freemem"); (EName "count_t")]); (ETuple [(EStr "buffermem"); (EName "count_t")]); (ETuple [(EStr "slabmem"); (EName "count_t")]); (ETuple [(EStr "cachemem"); (EName "count_t")]); (ETuple [(EStr "cachedrt"); (EName "count_t")]); (ETuple [(EStr "totswap"); (EName "count_t")]); (ETuple [(EStr "freeswap"); (EName "count_t")]); (ETuple [(EStr "pgscans"); (EName "count_t")]); (ETuple [(EStr "pgsteal"); (EName "count_t")]); (ETuple [(EStr "allocstall"); (EName "count_t")]); (ETuple [(EStr "swouts"); (EName "count_t")]); (ETuple [(EStr "swins"); (EName "count_t")]); (ETuple [(EStr "commitlim"); (EName "count_t")]); (ETuple [(EStr "committed"); (EName "count_t")]); (ETuple [(EStr "shmem"); (EName "count_t")]); (ETuple [(EStr "shmrss"); (EName "count_t")]); (ETuple [(EStr "shmswp"); (EName "count_t")]); (ETuple [(EStr "slabreclaim"); (EName "count_t")]); (ETuple [(EStr "tothugepage"); (EName "count_t")]); (ETuple [(EStr "freehugepage"); (EName "count_t")]); (ETuple [(EStr "hugepagesz"); (EName "count_t")]); (ETuple [(EStr "vmwballoon"); (EName "count_t")]); (ETuple [(EStr "cfuture"); (EBin OpMul (EName "count_t") (EInt 8))])])];
    (* atop_2_3.py:114-114 *) TopAssign "FreqCnt" (EAttr (EName "atop_1_26") "FreqCnt");
    (* atop_2_3.py:117-138 *) TopClass "PerCPU" [(EAttr (EName "ctypes") "Structure")] [
      CAssign "_fields_" (EList [(ETuple [(EStr "cpunr"); (EAttr (EName "ctypes") "c_int")]); (ETuple [(EStr "stime"); (EName "count_t")]); (ETuple [(EStr "utime"); (EName "count_t")]); (ETuple [(EStr "ntime"); (EName "count_t")]); (ETuple [(EStr "itime"); (EName "count_t")]); (ETuple [(EStr "wtime"); (EName "count_t")]); (ETuple [(EStr "Itime"); (EName "count_t")]); (ETuple [(EStr "Stime"); (EName "count_t")]); (ETuple [(EStr "steal"); (EName "count_t")]); (ETuple [(EStr "guest"); (EName "count_t")]); (ETuple [(EStr "freqcnt"); (EName "FreqCnt")]); (ETuple [(EStr "cfuture"); (EBin OpMul (EName "count_t") (EInt 4))])])];
    (* atop_2_3.py:141-161 *) TopClass "CPUStat" [(EAttr (EName "ctypes") "Structure")] [
      CAssign "_fields_" (EList [(ETuple [(EStr "nrcpu"); (EName "count_t")]); (ETuple [(EStr "devint"); (EName "count_t")]); (ETuple [(EStr "csw"); (EName "count_t")]); (ETuple [(EStr "nprocs"); (EName "count_t")]); (ETuple [(EStr "lavg1"); (EAttr (EName "ctypes") "c_float")]); (ETuple [(EStr "lavg5"); (EAttr (EName "ctypes") "c_float")]); (ETuple [(EStr "lavg15"); (EAttr (EName "ctypes") "c_float")]); (ETuple [(EStr "cfuture"); (EBin OpMul (EName "count_t") (EInt 4))]); (ETuple [(EStr "all"); (EName "PerCPU")]); (ETuple [(EStr "cpu"); (EBin OpMul (EName "PerCPU") (EName "MAXCPU"))])]);
      CAssign "fields_limiters" (EDict [((EStr "cpu"), (EStr "nrcpu"))])];
    (* atop_2_3.py:164-181 *) TopClass "PerDSK" [(EAttr (EName "ctypes") "Structure")] [
      CAssign "_fields_" (EList [(ETuple [(EStr "name"); (EBin OpMul (EAttr (EName "ctypes") "c_char") (EName "MAXDKNAM"))]); (ETuple [(EStr "nread"); (EName "count_t")]); (ETuple [(EStr "nrsect"); (EName "count_t")]); (ETuple [(EStr "nwrite"); (EName "count_t")]); (ETuple [(EStr "nwsect"); (EName "count_t")]); (ETuple [(EStr "io_ms"); (EName "count_t")]); (ETuple [(EStr "avque"); (EName "count_t")]); (ETuple [(EStr "cfuture"); (EBin OpMul (EName "count_t") (EInt 4))])])];
    (* atop_2_3.py:184-204 *) TopClass "DSKStat" [(EAttr (EName "ctypes") "Structure")] [
      CAssign "_fields_" (EList [(ETuple [(EStr "ndsk"); (EAttr (EName "ctypes") "c_int")]); (ETuple [(EStr "nmdd"); (EAttr (EName "ctypes") "c_int")]); (ETuple [(EStr "nlvm"); (EAttr (EName "ctypes") "c_int")]); (ETuple [(EStr "dsk"); (EBin OpMul (EName "PerDSK") (EName "MAXDSK"))]); (ETuple [(EStr "mdd"); (EBin OpMul (EName "PerDSK") (EName "MAXMDD"))]); (ETuple [(EStr "lvm"); (EBin OpMul (EName "PerDSK") (EName "MAXLVM"))])]);
      CAssign "fields_limiters" (EDict [((EStr "dsk"), (EStr "ndsk")); ((EStr "mdd"), (EStr "nmdd")); ((EStr "lvm"), (EStr "nlvm"))])];
    (* atop_2_3.py:207-240 *) TopClass "PerIntf" [(EAttr (EName "ctypes") "Structure")] [
      CAssign "_fields_" (EList [(ETuple [(EStr "name"); (EBin OpMul (EAttr (EName "ctypes") "c_char") (EInt 16))]); (ETuple [(EStr "rbyte"); (EName "count_t")]); (ETuple [(EStr "rpack"); (EName "count_t")]); (ETuple [(EStr "rerrs"); (EName "count_t")]); (ETuple [(EStr "rdrop"); (EName "count_t")]); (ETuple [(EStr "rfifo"); (EName "count_t")]); (ETuple [(EStr "rframe"); (EName "count_t")]); (ETuple [(EStr "rcompr"); (EName "count_t")]); (ETuple [(EStr "rmultic"); (EName "count_t")]); (ETuple [(EStr "rfuture"); (EBin OpMul (EName "count_t") (EInt 4))]); (ETuple [(EStr "sbyte"); (EName "count_t")]); (ETuple [(EStr "spack"); (EName "count_t")]); (ETuple [(EStr "serrs"); (EName "count_t")]); (ETuple [(EStr "sdrop"); (EName "count_t")]); (ETuple [(EStr "sfifo"); (EName "count_t")]); (ETuple [(EStr "scollis"); (EName "count_t")]); (ETuple [(EStr "scarrier"); (EName "count_t")]); (ETuple [(EStr "scompr"); (EName "count_t")]); (ETuple [(EStr "sfuture"); (EBin OpMul (EName "count_t") (EInt 4))]); (ETuple [(EStr "type"); (EAttr (EName "ctypes") "c_char")]); (ETuple [(EStr "speed"); (EAttr (EName "ctypes") "c_long")]); (ETuple [(EStr "speedp"); (EAttr (EName "ctypes") "c_long")]); (ETuple [(EStr "duplex"); (EAttr (EName "ctypes") "c_char")]); (ETuple [(EStr "cfuture"); (EBin OpMul (EName "count_t") (EInt 4))])])];
    (* atop_2_3.py:243-257 *) TopClass "IntfStat" [(EAttr (EName "ctypes") "Structure")] [
      CAssign "_fields_" (EList [(ETuple [(EStr "nrintf"); (EAttr (EName "ctypes") "c_int")]); (ETuple [(EStr "intf"); (EBin OpMul (EName "PerIntf") (EName "MAXINTF"))])]);
      CAssign "fields_limiters" (EDict [((EStr "intf"), (EStr "nrintf"))])];
    (* atop_2_3.py:260-280 *) TopClass "PerNFSMount" [(EAttr (EName "ctypes") "Structure")] [
      CAssign "_fields_" (EList [(ETuple [(EStr "mountdev"); (EBin OpMul (EAttr (EName "ctypes") "c_char") (EInt 128))]); (ETuple [(EStr "age"); (EName "count_t")]); (ETuple [(EStr "bytesread"); (EName "count_t")]); (ETuple [(EStr "byteswrite"); (EName "count_t")]); (ETuple [(EStr "bytesdread"); (EName "count_t")]); (ETuple [(EStr "bytesdwrite"); (EName "count_t")]); (ETuple [(EStr "bytestotread"); (EName "count_t")]); (ETuple [(EStr "bytestotwrite"); (EName "count_t")]); (ETuple [(EStr "pagesmread"); (EName "count_t")]); (ETuple [(EStr "pagesmwrite"); (EName "count_t")]); (ETuple [(EStr "future"); (EBin OpMul (EName "count_t") (EInt 8))])])];
    (* atop_2_3.py:283-308 *) TopClass "Server" [(EAttr (EName "ctypes") "Structure")] [
      CAssign "_fields_" (EList [(ETuple [(EStr "netcnt"); (EName "count_t")]); (ETuple [(EStr "netudpcnt"); (EName "count_t")]); (ETuple [(EStr "nettcpcnt"); (EName "count_t")]); (ETuple [(EStr "nettcpcon"); (EName "count_t")]); (ETuple [(EStr "rpccnt"); (EName "count_t")]); (ETuple [(EStr "rpcbadfmt"); (EName "count_t")]); (ETuple [(EStr "rpcbadaut"); (EName "count_t")]); (ETuple [(EStr "rpcbadcln"); (EName "count_t")]); (ETuple [(EStr "rpcread"); (EName "count_t")]); (ETuple [(EStr "rpcwrite"); (EName "count_t")]); (ETuple [(EStr "rchits"); (EName "count_t")]); (ETuple [(EStr "rcmiss"); (EName "count_t")]); (ETuple [(EStr "rcnoca"); (EName "count_t")]); (ETuple [(EStr "nrbytes"); (EName "count_t")]); (ETuple [(EStr "nwbytes"); (EName "count_t")]); (ETuple [(EStr "future"); (EBin OpMul (EName "count_t") (EInt 8))])])];
    (* atop_2_3.py:311-326 *) TopClass "Client" [(EAttr (EName "ctypes") "Structure")] [
      CAssign "_fields_" (EList [(ETuple [(EStr "rpccnt"); (EName "count_t")]); (ETuple [(EStr "rpcretrans"); (EName "count_t")]); (ETuple [(EStr "rpcautrefresh"); (EName "count_t")]); (ETuple [(EStr "rpcread"); (EName "count_t")]); (ETuple [(EStr "rpcwrite"); (EName "count_t")]); (ETuple [(EStr "future"); (EBin OpMul (EName "count_t") (EInt 8))])])];
    (* atop_2_3.py:329-343 *) TopClass "NFSMounts" [(EAttr (EName "ctypes") "Structure")] [
      CAssign "_fields_" (EList [(ETuple [(EStr "nrmounts"); (EAttr (EName "ctypes") "c_int")]); (ETuple [(EStr "nfsmnt"); (EBin OpMul (EName "PerNFSMount") (EName "MAXNFSMOUNT"))])]);
      CAssign "fields_limiters" (EDict [((EStr "nfsmnt"), (EStr "nrmounts"))])];
    (* atop_2_3.py:346-358 *) TopClass "NFSStat" [(EAttr (EName "ctypes") "Structure")] [
      CAssign "_fields_" (EList [(ETuple [(EStr "server"); (EName "Server")]); (ETuple [(EStr "client"); (EName "Client")]); (ETuple [(EStr "nfsmounts"); (EName "NFSMounts")])])];
    (* atop_2_3.py:361-377 *) TopClass "PerContainer" [(EAttr (EName "ctypes") "Structure")] [
      CAssign "_fields_" (EList [(ETuple [(EStr "ctid"); (EAttr (EName "ctypes") "c_ulong")]); (ETuple [(EStr "numproc"); (EAttr (EName "ctypes") "c_ulong")]); (ETuple [(EStr "system"); (EName "count_t")]); (ETuple [(EStr "user"); (EName "count_t")]); (ETuple [(EStr "nice"); (EName "count_t")]); (ETuple [(EStr "uptime"); (EName "count_t")]); (ETuple [(EStr "physpages"); (EName "count_t")])])];
    (* atop_2_3.py:380-394 *) TopClass "ContStat" [(EAttr (EName "ctypes") "Structure")] [
      CAssign "_fields_" (EList [(ETuple [(EStr "nrcontainer"); (EAttr (EName "ctypes") "c_int")]); (ETuple [(EStr "cont"); (EBin OpMul (EName "PerContainer") (EName "MAXCONTAINER"))])]);
      CAssign "fields_limiters" (EDict [((EStr "cont"), (EStr "nrcontainer"))])];
    (* atop_2_3.py:397-397 *) TopAssign "WWWStat" (EAttr (EName "atop_1_26") "WWWStat");
    (* atop_2_3.py:400-400 *) TopAssign "IPv4Stats" (EAttr (EName "atop_1_26") "IPv4Stats");
    (* atop_2_3.py:403-403 *) TopAssign "ICMPv4Stats" (EAttr (EName "atop_1_26") "ICMPv4Stats");
    (* atop_2_3.py:406-406 *) TopAssign "UDPv4Stats" (EAttr (EName "atop_1_26") "UDPv4Stats");
    (* atop_2_3.py:409-409 *) TopAssign "TCPStats" (EAttr (EName "atop_1_26") "TCPStats");
    (* atop_2_3.py:412-412 *) TopAssign "IPv6Stats" (EAttr (EName "atop_1_26") "IPv6Stats");
    (* atop_2_3.py:415-415 *) TopAssign "ICMPv6Stats" (EAttr (EName "atop_1_26") "ICMPv6Stats");
    (* atop_2_3.py:418-418 *) TopAssign "UDPv6Stats" (EAttr (EName "atop_1_26") "UDPv6Stats");
    (* atop_2_3.py:421-421 *) TopAssign "NETStat" (EAttr (EName "atop_1_26") "NETStat");
    (* atop_2_3.py:424-440 *) TopClass "SStat" [(EAttr (EName "ctypes") "Structure")] [
      CAssign "_fields_" (EList [(ETuple [(EStr "cpu"); (EName "CPUStat")]); (ETuple [(EStr "mem"); (EName "MemStat")]); (ETuple [(EStr "net"); (EName "NETStat")]); (ETuple [(EStr "intf"); (EName "IntfStat")]); (ETuple [(EStr "dsk"); (EName "DSKStat")]); (ETuple [(EStr "nfs"); (EName "NFSStat")]); (ETuple [(EStr "cfs"); (EName "ContStat")]); (ETuple [(EStr "www"); (EName "WWWStat")])])];
    (* atop_2_3.py:443-478 *) TopClass "GEN" [(EAttr (EName "ctypes") "Structure")] [
      CAssign "_fields_" (EList [(ETuple [(EStr "tgid"); (EAttr (EName "ctypes") "c_int")]); (ETuple [(EStr "pid"); (EAttr (EName "ctypes") "c_int")]); (ETuple [(EStr "ppid"); (EAttr (EName "ctypes") "c_int")]); (ETuple [(EStr "ruid"); (EAttr (EName "ctypes") "c_int")]); (ETuple [(EStr "euid"); (EAttr (EName "ctypes") "c_int")]); (ETuple [(EStr "suid"); (EAttr (EName "ctypes") "c_int")]); (ETuple [(EStr "fsuid"); (EAttr (EName "ctypes") "c_int")]); (ETuple [(EStr "rgid"); (EAttr (EName "ctypes") "c_int")]); (ETuple [(EStr "egid"); (EAttr (EName "ctypes") "c_int")]); (ETuple [(EStr "sgid"); (EAttr (EName "ctypes") "c_int")]); (ETuple [(EStr "fsgid"); (EAttr (EName "ctypes") "c_int")]); (ETuple [(EStr "nthr"); (EAttr (EName "ctypes") "c_int")]); (ETuple [(EStr "name"); (EBin OpMul (EAttr (EName "ctypes") "c_char") (EBin OpAdd (EName "PNAMLEN") (EInt 1)))]); (ETuple [(EStr "isproc"); (EAttr (EName "ctypes") "c_char")]); (ETuple [(EStr "state"); (EAttr (EName "ctypes") "c_char")]); (ETuple [(EStr "excode"); (EAttr (EName "ctypes") "c_int")]); (ETuple [(EStr "btime"); (EName "time_t")]); (ETuple [(EStr "elaps"); (EName "time_t")]); (ETuple [(EStr "cmdline"); (EBin OpMul (EAttr (EName "ctypes") "c_char") (EBin OpAdd (EName "CMDLEN") (EInt 1)))]); (ETuple [(EStr "nthrslpi"); (EAttr (EName "ctypes") "c_int")]); (ETuple [(EStr "nthrslpu"); (EAttr (EName "ctypes") "c_int")]); (ETuple [(EStr "nthrrun"); (EAttr (EName "ctypes") "c_int")]); (ETuple [(EStr "ctid"); (EAttr (EName "ctypes") "c_int")]); (ETuple [(EStr "vpid"); (EAttr (EName "ctypes") "c_int")]); (ETuple [(EStr "wasinactive"); (EAttr (EName "ctypes") "c_int")]); (ETuple [(EStr "container"); (EBin OpMul (EAttr (EName "ctypes") "c_char") (EInt 16))])])];
    (* atop_2_3.py:481-481 *) TopAssign "CPU" (EAttr (EName "atop_1_26") "CPU");
    (* atop_2_3.py:484-484 *) TopAssign "DSK" (EAttr (EName "atop_1_26") "DSK");
    (* atop_2_3.py:487-509 *) TopClass "MEM" [(EAttr (EName "ctypes") "Structure")] [
      CAssign "_fields_" (EList [(ETuple [(EStr "minflt"); (EName "count_t")]); (ETuple [(EStr "majflt"); (EName "count_t")]); (ETuple [(EStr "vexec"); (EName "count_t")]); (ETuple [(EStr "vmem"); (EName "count_t")]); (ETuple [(EStr "rmem"); (EName "count_t")]); (ETuple [(EStr "pmem"); (EName "count_t")]); (ETuple [(EStr "vgrow"); (EName "count_t")]); (ETuple [(EStr "rgrow"); (EName "count_t")]); (ETuple [(EStr "vdata"); (EName "count_t")]); (ETuple [(EStr "vstack"); (EName "count_t")]); (ETuple [(EStr "vlibs"); (EName "count_t")]); (ETuple [(EStr "vswap"); (EName "count_t")]); (ETuple [(EStr "cfuture"); (EBin OpMul (EName "count_t") (EInt 4))])])];
    (* atop_2_3.py:512-532 *) TopClass "NET" [(EAttr (EName "ctypes") "Structure")] [
      CAssign "_fields_" (EList [(ETuple [(EStr "tcpsnd"); (EName "count_t")]); (ETuple [(EStr "tcpssz"); (EName "count_t")]); (ETuple [(EStr "tcprcv"); (EName "count_t")]); (ETuple [(EStr "tcprsz"); (EName "count_t")]); (ETuple [(EStr "udpsnd"); (EName "count_t")]); (ETuple [(EStr "udpssz"); (EName "count_t")]); (ETuple [(EStr "udprcv"); (EName "count_t")]); (ETuple [(EStr "udprsz"); (EName "count_t")]); (ETuple [(EStr "avail1"); (EName "count_t")]); (ETuple [(EStr "avail2"); (EName "count_t")]); (ETuple [(EStr "cfuture"); (EBin OpMul (EName "count_t") (EInt 4))])])];
    (* atop_2_3.py:535-548 *) TopClass "TStat" [(EAttr (EName "ctypes") "Structure")] [
      CAssign "_fields_" (EList [(ETuple [(EStr "gen"); (EName "GEN")]); (ETuple [(EStr "cpu"); (EName "CPU")]); (ETuple [(EStr "dsk"); (EName "DSK")]); (ETuple [(EStr "mem"); (EName "MEM")]); (ETuple [(EStr "net"); (EName "NET")])])];
    (* atop_2_3.py:551-583 *) TopClass "Header" [(EAttr (EName "ctypes") "Structure"); (EName "HeaderMixin")] [
      CAssign "_fields_" (EList [(ETuple [(EStr "magic"); (EAttr (EName "ctypes") "c_uint")]); (ETuple [(EStr "aversion"); (EAttr (EName "ctypes") "c_ushort")]); (ETuple [(EStr "future1"); (EAttr (EName "ctypes") "c_ushort")]); (ETuple [(EStr "future2"); (EAttr (EName "ctypes") "c_ushort")]); (ETuple [(EStr "rawheadlen"); (EAttr (EName "ctypes") "c_ushort")]); (ETuple [(EStr "rawreclen"); (EAttr (EName "ctypes") "c_ushort")]); (ETuple [(EStr "hertz"); (EAttr (EName "ctypes") "c_ushort")]); (ETuple [(EStr "sfuture"); (EBin OpMul (EAttr (EName "ctypes") "c_ushort") (EInt 6))]); (ETuple [(EStr "sstatlen"); (EAttr (EName "ctypes") "c_uint")]); (ETuple [(EStr "tstatlen"); (EAttr (EName "ctypes") "c_uint")]); (ETuple [(EStr "utsname"); (EName "UTSName")]); (ETuple [(EStr "cfuture"); (EBin OpMul (EAttr (EName "ctypes") "c_char") (EInt 8))]); (ETuple [(EStr "pagesize"); (EAttr (EName "ctypes") "c_uint")]); (ETuple [(EStr "supportflags"); (EAttr (EName "ctypes") "c_int")]); (ETuple [(EStr "osrel"); (EAttr (EName "ctypes") "c_int")]); (ETuple [(EStr "osvers"); (EAttr (EName "ctypes") "c_int")]); (ETuple [(EStr "ossub"); (EAttr (EName "ctypes") "c_int")]); (ETuple [(EStr "ifuture"); (EBin OpMul (EAttr (EName "ctypes") "c_int") (EInt 6))])]);
      CAssign "supported_version" (EStr "2.3");
      CAssign "Record" (EName "Record");
      CAssign "SStat" (EName "SStat");
      CAssign "TStat" (EName "TStat");
      CAssign "CStat" ENone;
      CAssign "CGChainer" ENone]].

(** atoparser/structs/atop_2_4.py *)
Definition text_atop_2_4 : list top :=
  [
    (* atop_2_4.py:16-16 *) TopImport "ctypes" "ctypes" None;
    (* atop_2_4.py:18-18 *) TopImport "atop_1_26" "atoparser.structs" (Some "atop_1_26");
    (* atop_2_4.py:19-19 *) TopImport "atop_2_3" "atoparser.structs" (Some "atop_2_3");
    (* atop_2_4.py:20-20 *) TopImport "count_t" "atoparser.structs.shared" (Some "count_t");
    (* atop_2_4.py:27-27 *) TopAssign "ACCTACTIVE" (EInt 1);
    (* atop_2_4.py:28-28 *) TopAssign "IOSTAT" (EInt 4);
    (* atop_2_4.py:29-29 *) TopAssign "NETATOP" (EInt 16);
    (* atop_2_4.py:30-30 *) TopAssign "NETATOPD" (EInt 32);
    (* atop_2_4.py:31-31 *) TopAssign "DOCKSTAT" (EInt 64);
    (* atop_2_4.py:32-32 *) TopAssign "GPUSTAT" (EInt 128);
    (* atop_2_4.py:35-35 *) TopAssign "PNAMLEN" (EInt 15);
    (* atop_2_4.py:36-36 *) TopAssign "CMDLEN" (EInt 255);
    (* atop_2_4.py:39-39 *) TopAssign "MAXCPU" (EInt 2048);
    (* atop_2_4.py:40-40 *) TopAssign "MAXDSK" (EInt 1024);
    (* atop_2_4.py:41-41 *) TopAssign "MAXLVM" (EInt 2048);
    (* atop_2_4.py:42-42 *) TopAssign "MAXMDD" (EInt 256);
    (* atop_2_4.py:43-43 *) TopAssign "MAXINTF" (EInt 128);
    (* atop_2_4.py:44-44 *) TopAssign "MAXCONTAINER" (EInt 128);
    (* atop_2_4.py:45-45 *) TopAssign "MAXNFSMOUNT" (EInt 64);
    (* atop_2_4.py:46-46 *) TopAssign "MAXIBPORT" (EInt 32);
    (* atop_2_4.py:47-47 *) TopAssign "MAXGPU" (EInt 32);
    (* atop_2_4.py:48-48 *) TopAssign "MAXGPUBUS" (EInt 12);
    (* atop_2_4.py:49-49 *) TopAssign "MAXGPUTYPE" (EInt 12);
    (* atop_2_4.py:50-50 *) TopAssign "MAXDKNAM" (EInt 32);
    (* atop_2_4.py:51-51 *) TopAssign "MAXIBNAME" (EInt 12);
    (* atop_2_4.py:54-54 *) TopAssign "Record" (EAttr (EName "atop_2_3") "Record");
    (* atop_2_4.py:57-57 *) TopAssign "MemStat" (EAttr (EName "atop_2_3") "MemStat");
    (* atop_2_4.py:60-60 *) TopAssign "FreqCnt" (EAttr (EName "atop_1_26") "FreqCnt");
    (* atop_2_4.py:63-86 *) TopClass "PerCPU" [(EAttr (EName "ctypes") "Structure")] [
      CAssign "_fields_" (EList [(ETuple [(EStr "cpunr"); (EAttr (EName "ctypes") "c_int")]); (ETuple [(EStr "stime"); (EName "count_t")]); (ETuple [(EStr "utime"); (EName "count_t")]); (ETuple [(EStr "ntime"); (EName "count_t")]); (ETuple [(EStr "itime"); (EName "count_t")]); (ETuple [(EStr "wtime"); (EName "count_t")]); (ETuple [(EStr "Itime"); (EName "count_t")]); (ETuple [(EStr "Stime"); (EName "count_t")]); (ETuple [(EStr "steal"); (EName "count_t")]); (ETuple [(EStr "guest"); (EName "count_t")]); (ETuple [(EStr "freqcnt"); (EName "FreqCnt")]); (ETuple [(EStr "instr"); (EName "count_t")]); (ETuple [(EStr "cycle"); (EName "count_t")]); (ETuple [(EStr "cfuture"); (EBin OpMul (EName "count_t") (EInt 2))])])];
    (* atop_2_4.py:89-109 *) TopClass "CPUStat" [(EAttr (EName "ctypes") "Structure")] [
      CAssign "_fields_" (EList [(ETuple [(EStr "nrcpu"); (EName "count_t")]); (ETuple [(EStr "devint"); (EName "count_t")]); (ETuple [(EStr "csw"); (EName "count_t")]); (ETuple [(EStr "nprocs"); (EName "count_t")]); (ETuple [(EStr "lavg1"); (EAttr (EName "ctypes") "c_float")]); (ETuple [(EStr "lavg5"); (EAttr (EName "ctypes") "c_float")]); (ETuple [(EStr "lavg15"); (EAttr (EName "ctypes") "c_float")]); (ETuple [(EStr "cfuture"); (EBin OpMul (EName "count_t") (EInt 4))]); (ETuple [(EStr "all"); (EName "PerCPU")]); (ETuple [(EStr "cpu"); (EBin OpMul (EName "PerCPU") (EName "MAXCPU"))])]);
      CAssign "fields_limiters" (EDict [((EStr "cpu"), (EStr "nrcpu"))])];
    (* atop_2_4.py:112-112 *) TopAssign "PerDSK" (EAttr (EName "atop_2_3") "PerDSK");
    (* atop_2_4.py:115-115 *) TopAssign "DSKStat" (EAttr (EName "atop_2_3") "DSKStat");
    (* atop_2_4.py:118-118 *) TopAssign "PerIntf" (EAttr (EName "atop_2_3") "PerIntf");
    (* atop_2_4.py:121-121 *) TopAssign "IntfStat" (EAttr (EName "atop_2_3") "IntfStat");
    (* atop_2_4.py:124-124 *) TopAssign "PerNFSMount" (EAttr (EName "atop_2_3") "PerNFSMount");
    (* atop_2_4.py:127-127 *) TopAssign "Server" (EAttr (EName "atop_2_3") "Server");
    (* atop_2_4.py:130-130 *) TopAssign "Client" (EAttr (EName "atop_2_3") "Client");
    (* atop_2_4.py:133-133 *) TopAssign "NFSMounts" (EAttr (EName "atop_2_3") "NFSMounts");
    (* atop_2_4.py:136-136 *) TopAssign "NFSStat" (EAttr (EName "atop_2_3") "NFSStat");
    (* atop_2_4.py:139-152 *) TopClass "PSI" [(EAttr (EName "ctypes") "Structure")] [
      CAssign "_fields_" (EList [(ETuple [(EStr "avg10"); (EAttr (EName "ctypes") "c_float")]); (ETuple [(EStr "avg60"); (EAttr (EName "ctypes") "c_float")]); (ETuple [(EStr "avg300"); (EAttr (EName "ctypes") "c_float")]); (ETuple [(EStr "total"); (EName "count_t")])])];
    (* atop_2_4.py:155-171 *) TopClass "Pressure" [(EAttr (EName "ctypes") "Structure")] [
      CAssign "_fields_" (EList [(ETuple [(EStr "present"); (EAttr (EName "ctypes") "c_char")]); (ETuple [(EStr "future"); (EBin OpMul (EAttr (EName "ctypes") "c_char") (EInt 3))]); (ETuple [(EStr "cpusome"); (EName "PSI")]); (ETuple [(EStr "memsome"); (EName "PSI")]); (ETuple [(EStr "memfull"); (EName "PSI")]); (ETuple [(EStr "iosome"); (EName "PSI")]); (ETuple [(EStr "iofull"); (EName "PSI")])])];
    (* atop_2_4.py:174-174 *) TopAssign "PerContainer" (EAttr (EName "atop_2_3") "PerContainer");
    (* atop_2_4.py:177-177 *) TopAssign "ContStat" (EAttr (EName "atop_2_3") "ContStat");
    (* atop_2_4.py:180-180 *) TopAssign "WWWStat" (EAttr (EName "atop_1_26") "WWWStat");
    (* atop_2_4.py:183-205 *) TopClass "PerGPU" [(EAttr (EName "ctypes") "Structure")] [
      CAssign "_fields_" (EList [(ETuple [(EStr "taskstats"); (EAttr (EName "ctypes") "c_char")]); (ETuple [(EStr "nrprocs"); (EAttr (EName "ctypes") "c_uint8")]); (ETuple [(EStr "type"); (EBin OpMul (EAttr (EName "ctypes") "c_char") (EBin OpAdd (EName "MAXGPUTYPE") (EInt 1)))]); (ETuple [(EStr "busid"); (EBin OpMul (EAttr (EName "ctypes") "c_char") (EBin OpAdd (EName "MAXGPUBUS") (EInt 1)))]); (ETuple [(EStr "gpunr"); (EAttr (EName "ctypes") "c_int")]); (ETuple [(EStr "gpupercnow"); (EAttr (EName "ctypes") "c_int")]); (ETuple [(EStr "mempercnow"); (EAttr (EName "ctypes") "c_int")]); (ETuple [(EStr "memtotnow"); (EName "count_t")]); (ETuple [(EStr "memusenow"); (EName "count_t")]); (ETuple [(EStr "samples"); (EName "count_t")]); (ETuple [(EStr "gpuperccum"); (EName "count_t")]); (ETuple [(EStr "memperccum"); (EName "count_t")]); (ETuple [(EStr "memusecum"); (EName "count_t")])])];
    (* atop_2_4.py:208-222 *) TopClass "GPUStat" [(EAttr (EName "ctypes") "Structure")] [
      CAssign "_fields_" (EList [(ETuple [(EStr "nrgpus"); (EAttr (EName "ctypes") "c_int")]); (ETuple [(EStr "gpu"); (EBin OpMul (EName "PerGPU") (EName "MAXGPU"))])]);
      CAssign "fields_limiters" (EDict [((EStr "gpu"), (EStr "nrgpus"))])];
    (* atop_2_4.py:225-242 *) TopClass "PerIFB" [(EAttr (EName "ctypes") "Structure")] [
      CAssign "_fields_" (EList [(ETuple [(EStr "ibname"); (EBin OpMul (EAttr (EName "ctypes") "c_char") (EName "MAXIBNAME"))]); (ETuple [(EStr "portnr"); (EAttr (EName "ctypes") "c_short")]); (ETuple [(EStr "lanes"); (EAttr (EName "ctypes") "c_short")]); (ETuple [(EStr "rate"); (EName "count_t")]); (ETuple [(EStr "rcvb"); (EName "count_t")]); (ETuple [(EStr "sndb"); (EName "count_t")]); (ETuple [(EStr "rcvp"); (EName "count_t")]); (ETuple [(EStr "sndp"); (EName "count_t")])])];
    (* atop_2_4.py:245-259 *) TopClass "IFBStat" [(EAttr (EName "ctypes") "Structure")] [
      CAssign "_fields_" (EList [(ETuple [(EStr "nrports"); (EAttr (EName "ctypes") "c_int")]); (ETuple [(EStr "ifb"); (EBin OpMul (EName "PerIFB") (EName "MAXIBPORT"))])]);
      CAssign "fields_limiters" (EDict [((EStr "ifb"), (EStr "nrports"))])];
    (* atop_2_4.py:262-262 *) TopAssign "IPv4Stats" (EAttr (EName "atop_1_26") "IPv4Stats");
    (* atop_2_4.py:265-265 *) TopAssign "ICMPv4Stats" (EAttr (EName "atop_1_26") "ICMPv4Stats");
    (* atop_2_4.py:268-268 *) TopAssign "UDPv4Stats" (EAttr (EName "atop_1_26") "UDPv4Stats");
    (* atop_2_4.py:271-271 *) TopAssign "TCPStats" (EAttr (EName "atop_1_26") "TCPStats");
    (* atop_2_4.py:274-274 *) TopAssign "IPv6Stats" (EAttr (EName "atop_1_26") "IPv6Stats");
    (* atop_2_4.py:277-277 *) TopAssign "ICMPv6Stats" (EAttr (EName "atop_1_26") "ICMPv6Stats");
    (* atop_2_4.py:280-280 *) TopAssign "UDPv6Stats" (EAttr (EName "atop_1_26") "UDPv6Stats");
    (* atop_2_4.py:283-283 *) TopAssign "NETStat" (EAttr (EName "atop_1_26") "NETStat");
    (* atop_2_4.py:286-305 *) TopClass "SStat" [(EAttr (EName "ctypes") "Structure")] [
      CAssign "_fields_" (EList [(ETuple [(EStr "cpu"); (EName "CPUStat")]); (ETuple [(EStr "mem"); (EName "MemStat")]); (ETuple [(EStr "net"); (EName "NETStat")]); (ETuple [(EStr "intf"); (EName "IntfStat")]); (ETuple [(EStr "dsk"); (EName "DSKStat")]); (ETuple [(EStr "nfs"); (EName "NFSStat")]); (ETuple [(EStr "cfs"); (EName "ContStat")]); (ETuple [(EStr "psi"); (EName "Pressure")]); (ETuple [(EStr "gpu"); (EName "GPUStat")]); (ETuple [(EStr "ifb"); (EName "IFBStat")]); (ETuple [(EStr "www"); (EName "WWWStat")])])];
    (* atop_2_4.py:308-308 *) TopAssign "GEN" (EAttr (EName "atop_2_3") "GEN");
    (* atop_2_4.py:311-311 *) TopAssign "CPU" (EAttr (EName "atop_1_26") "CPU");
    (* atop_2_4.py:314-314 *) TopAssign "DSK" (EAttr (EName "atop_1_26") "DSK");
    (* atop_2_4.py:317-317 *) TopAssign "MEM" (EAttr (EName "atop_2_3") "MEM");
    (* atop_2_4.py:320-320 *) TopAssign "NET" (EAttr (EName "atop_2_3") "NET");
    (* atop_2_4.py:323-342 *) TopClass "GPU" [(EAttr (EName "ctypes") "Structure")] [
      CAssign "_fields_" (EList [(ETuple [(EStr "state"); (EAttr (EName "ctypes") "c_char")]); (ETuple [(EStr "cfuture"); (EBin OpMul (EAttr (EName "ctypes") "c_char") (EInt 3))]); (ETuple [(EStr "nrgpus"); (EAttr (EName "ctypes") "c_short")]); (ETuple [(EStr "gpulist"); (EAttr (EName "ctypes") "c_int32")]); (ETuple [(EStr "gpubusy"); (EAttr (EName "ctypes") "c_int")]); (ETuple [(EStr "membusy"); (EAttr (EName "ctypes") "c_int")]); (ETuple [(EStr "timems"); (EName "count_t")]); (ETuple [(EStr "memnow"); (EName "count_t")]); (ETuple [(EStr "memcum"); (EName "count_t")]); (ETuple [(EStr "sample"); (EName "count_t")])])];
    (* atop_2_4.py:345-359 *) TopClass "TStat" [(EAttr (EName "ctypes") "Structure")] [
      CAssign "_fields_" (EList [(ETuple [(EStr "gen"); (EName "GEN")]); (ETuple [(EStr "cpu"); (EName "CPU")]); (ETuple [(EStr "dsk"); (EName "DSK")]); (ETuple [(EStr "mem"); (EName "MEM")]); (ETuple [(EStr "net"); (EName "NET")]); (ETuple [(EStr "gpu"); (EName "GPU")])])];
    (* atop_2_4.py:362-370 *) TopClass "Header" [(EAttr (EName "atop_2_3") "Header")] [
      CAssign "supported_version" (EStr "2.4");
      CAssign "Record" (EName "Record");
      CAssign "SStat" (EName "SStat");
      CAssign "TStat" (EName "TStat");
      CAssign "CStat" ENone;
      CAssign "CGChainer" ENone]].

(** atoparser/structs/atop_2_5.py *)
Definition text_atop_2_5 : list top :=
  [
    (* atop_2_5.py:16-16 *) TopImport "atop_1_26" "atoparser.structs" (Some "atop_1_26");
    (* atop_2_5.py:17-17 *) TopImport "atop_2_3" "atoparser.structs" (Some "atop_2_3");
    (* atop_2_5.py:18-18 *) TopImport "atop_2_4" "atoparser.structs" (Some "atop_2_4");
    (* atop_2_5.py:25-25 *) TopAssign "ACCTACTIVE" (EInt 1);
    (* atop_2_5.py:26-26 *) TopAssign "IOSTAT" (EInt 4);
    (* atop_2_5.py:27-27 *) TopAssign "NETATOP" (EInt 16);
    (* atop_2_5.py:28-28 *) TopAssign "NETATOPD" (EInt 32);
    (* atop_2_5.py:29-29 *) TopAssign "DOCKSTAT" (EInt 64);
    (* atop_2_5.py:30-30 *) TopAssign "GPUSTAT" (EInt 128);
    (* atop_2_5.py:33-33 *) TopAssign "PNAMLEN" (EInt 15);
    (* atop_2_5.py:34-34 *) TopAssign "CMDLEN" (EInt 255);
    (* atop_2_5.py:37-37 *) TopAssign "MAXCPU" (EInt 2048);
    (* atop_2_5.py:38-38 *) TopAssign "MAXDSK" (EInt 1024);
    (* atop_2_5.py:39-39 *) TopAssign "MAXLVM" (EInt 2048);
    (* atop_2_5.py:40-40 *) TopAssign "MAXMDD" (EInt 256);
    (* atop_2_5.py:41-41 *) TopAssign "MAXINTF" (EInt 128);
    (* atop_2_5.py:42-42 *) TopAssign "MAXCONTAINER" (EInt 128);
    (* atop_2_5.py:43-43 *) TopAssign "MAXNFSMOUNT" (EInt 64);
    (* atop_2_5.py:44-44 *) TopAssign "MAXIBPORT" (EInt 32);
    (* atop_2_5.py:45-45 *) TopAssign "MAXGPU" (EInt 32);
    (* atop_2_5.py:46-46 *) TopAssign "MAXGPUBUS" (EInt 12);
    (* atop_2_5.py:47-47 *) TopAssign "MAXGPUTYPE" (EInt 12);
    (* atop_2_5.py:48-48 *) TopAssign "MAXDKNAM" (EInt 32);
    (* atop_2_5.py:49-49 *) TopAssign "MAXIBNAME" (EInt 12);
    (* atop_2_5.py:52-52 *) TopAssign "Record" (EAttr (EName "atop_2_3") "Record");
    (* atop_2_5.py:55-55 *) TopAssign "MemStat" (EAttr (EName "atop_2_3") "MemStat");
    (* atop_2_5.py:58-58 *) TopAssign "FreqCnt" (EAttr (EName "atop_1_26") "FreqCnt");
    (* atop_2_5.py:61-61 *) TopAssign "PerCPU" (EAttr (EName "atop_2_3") "PerCPU");
    (* atop_2_5.py:64-64 *) TopAssign "CPUStat" (EAttr (EName "atop_2_3") "CPUStat");
    (* atop_2_5.py:67-67 *) TopAssign "PerDSK" (EAttr (EName "atop_2_3") "PerDSK");
    (* atop_2_5.py:70-70 *) TopAssign "DSKStat" (EAttr (EName "atop_2_3") "DSKStat");
    (* atop_2_5.py:73-73 *) TopAssign "PerIntf" (EAttr (EName "atop_2_3") "PerIntf");
    (* atop_2_5.py:76-76 *) TopAssign "IntfStat" (EAttr (EName "atop_2_3") "IntfStat");
    (* atop_2_5.py:79-79 *) TopAssign "PerNFSMount" (EAttr (EName "atop_2_3") "PerNFSMount");
    (* atop_2_5.py:82-82 *) TopAssign "Server" (EAttr (EName "atop_2_3") "Server");
    (* atop_2_5.py:85-85 *) TopAssign "Client" (EAttr (EName "atop_2_3") "Client");
    (* atop_2_5.py:88-88 *) TopAssign "NFSMounts" (EAttr (EName "atop_2_3") "NFSMounts");
    (* atop_2_5.py:91-91 *) TopAssign "NFSStat" (EAttr (EName "atop_2_3") "NFSStat");
    (* atop_2_5.py:94-94 *) TopAssign "PSI" (EAttr (EName "atop_2_4") "PSI");
    (* atop_2_5.py:97-97 *) TopAssign "Pressure" (EAttr (EName "atop_2_4") "Pressure");
    (* atop_2_5.py:100-100 *) TopAssign "PerContainer" (EAttr (EName "atop_2_3") "PerContainer");
    (* atop_2_5.py:103-103 *) TopAssign "ContStat" (EAttr (EName "atop_2_3") "ContStat");
    (* atop_2_5.py:106-106 *) TopAssign "WWWStat" (EAttr (EName "atop_1_26") "WWWStat");
    (* atop_2_5.py:109-109 *) TopAssign "PerGPU" (EAttr (EName "atop_2_4") "PerGPU");
    (* atop_2_5.py:112-112 *) TopAssign "GPUStat" (EAttr (EName "atop_2_4") "GPUStat");
    (* atop_2_5.py:115-115 *) TopAssign "PerIFB" (EAttr (EName "atop_2_4") "PerIFB");
    (* atop_2_5.py:118-118 *) TopAssign "IFBStat" (EAttr (EName "atop_2_4") "IFBStat");
    (* atop_2_5.py:121-121 *) TopAssign "IPv4Stats" (EAttr (EName "atop_1_26") "IPv4Stats");
    (* atop_2_5.py:124-124 *) TopAssign "ICMPv4Stats" (EAttr (EName "atop_1_26") "ICMPv4Stats");
    (* atop_2_5.py:127-127 *) TopAssign "UDPv4Stats" (EAttr (EName "atop_1_26") "UDPv4Stats");
    (* atop_2_5.py:130-130 *) TopAssign "TCPStats" (EAttr (EName "atop_1_26") "TCPStats");
    (* atop_2_5.py:133-133 *) TopAssign "IPv6Stats" (EAttr (EName "atop_1_26") "IPv6Stats");
    (* atop_2_5.py:136-136 *) TopAssign "ICMPv6Stats" (EAttr (EName "atop_1_26") "ICMPv6Stats");
    (* atop_2_5.py:139-139 *) TopAssign "UDPv6Stats" (EAttr (EName "atop_1_26") "UDPv6Stats");
    (* atop_2_5.py:142-142 *) TopAssign "NETStat" (EAttr (EName "atop_1_26") "NETStat");
    (* atop_2_5.py:145-145 *) TopAssign "SStat" (EAttr (EName "atop_2_4") "SStat");
    (* atop_2_5.py:148-148 *) TopAssign "GEN" (EAttr (EName "atop_2_3") "GEN");
    (* atop_2_5.py:151-151 *) TopAssign "CPU" (EAttr (EName "atop_1_26") "CPU");
    (* atop_2_5.py:154-154 *) TopAssign "DSK" (EAttr (EName "atop_1_26") "DSK");
    (* atop_2_5.py:157-157 *) TopAssign "MEM" (EAttr (EName "atop_2_3") "MEM");
    (* atop_2_5.py:160-160 *) TopAssign "NET" (EAttr (EName "atop_2_3") "NET");
    (* atop_2_5.py:163-163 *) TopAssign "GPU" (EAttr (EName "atop_2_4") "GPU");
    (* atop_2_5.py:166-166 *) TopAssign "TStat" (EAttr (EName "atop_2_4") "TStat");
    (* atop_2_5.py:169-177 *) TopClass "Header" [(EAttr (EName "atop_2_3") "Header")] [
      CAssign "supported_version" (EStr "2.5");
      CAssign "Record" (EName "Record");
      CAssign "SStat" (EName "SStat");
      CAssign "TStat" (EName "TStat");
      CAssign "CStat" ENone;
      CAssign "CGChainer" ENone]].

(** atoparser/structs/atop_2_6.py *)
Definition text_atop_2_6 : list top :=
  [
    (* atop_2_6.py:16-16 *) TopImport "ctypes" "ctypes" None;
    (* atop_2_6.py:18-18 *) TopImport "atop_1_26" "atoparser.structs" (Some "atop_1_26");
    (* atop_2_6.py:19-19 *) TopImport "atop_2_3" "atoparser.structs" (Some "atop_2_3");
    (* atop_2_6.py:20-20 *) TopImport "atop_2_4" "atoparser.structs" (Some "atop_2_4");
    (* atop_2_6.py:21-21 *) TopImport "count_t" "atoparser.structs.shared" (Some "count_t");
    (* atop_2_6.py:28-28 *) TopAssign "ACCTACTIVE" (EInt 1);
    (* atop_2_6.py:29-29 *) TopAssign "IOSTAT" (EInt 4);
    (* atop_2_6.py:30-30 *) TopAssign "NETATOP" (EInt 16);
    (* atop_2_6.py:31-31 *) TopAssign "NETATOPD" (EInt 32);
    (* atop_2_6.py:32-32 *) TopAssign "DOCKSTAT" (EInt 64);
    (* atop_2_6.py:33-33 *) TopAssign "GPUSTAT" (EInt 128);
    (* atop_2_6.py:36-36 *) TopAssign "PNAMLEN" (EInt 15);
    (* atop_2_6.py:37-37 *) TopAssign "CMDLEN" (EInt 255);
    (* atop_2_6.py:40-40 *) TopAssign "MAXCPU" (EInt 2048);
    (* atop_2_6.py:41-41 *) TopAssign "MAXDSK" (EInt 1024);
    (* atop_2_6.py:42-42 *) TopAssign "MAXLVM" (EInt 2048);
    (* atop_2_6.py:43-43 *) TopAssign "MAXMDD" (EInt 256);
    (* atop_2_6.py:44-44 *) TopAssign "MAXINTF" (EInt 128);
    (* atop_2_6.py:45-45 *) TopAssign "MAXCONTAINER" (EInt 128);
    (* atop_2_6.py:46-46 *) TopAssign "MAXNFSMOUNT" (EInt 64);
    (* atop_2_6.py:47-47 *) TopAssign "MAXIBPORT" (EInt 32);
    (* atop_2_6.py:48-48 *) TopAssign "MAXGPU" (EInt 32);
    (* atop_2_6.py:49-49 *) TopAssign "MAXGPUBUS" (EInt 12);
    (* atop_2_6.py:50-50 *) TopAssign "MAXGPUTYPE" (EInt 12);
    (* atop_2_6.py:51-51 *) TopAssign "MAXDKNAM" (EInt 32);
    (* atop_2_6.py:52-52 *) TopAssign "MAXIBNAME" (EInt 12);
    (* atop_2_6.py:55-55 *) TopAssign "Record" (EAttr (EName "atop_2_3") "Record");
    (* atop_2_6.py:58-93 *) TopClass "MemStat" [(EAttr (EName "ctypes") "Structure")] [
      CAssign "_fields_" (EList [(ETuple [(EStr "physmem"); (EName "count_t")]); (ETuple [(EStr "freemem"); (EName "count_t")]); (ETuple [(EStr "buffermem"); (EName "count_t")]); (ETuple [(EStr "slabmem"); (EName "count_t")]); (ETuple [(EStr "cachemem"); (EName "count_t")]); (ETuple [(EStr "cachedrt"); (EName "count_t")]); (ETuple [(EStr "totswap"); (EName "count_t")]); (ETuple [(EStr "freeswap"); (EName "count_t")]); (ETuple [(EStr "pgscans"); (EName "count_t")]); (ETuple [(EStr "pgsteal"); (EName "count_t")]); (ETuple [(EStr "allocstall"); (EName "count_t")]); (ETuple [(EStr "swouts"); (EName "count_t")]); (ETuple [(EStr "swins"); (EName "count_t")]); (ETuple [(EStr "commitlim"); (EName "count_t")]); (ETuple [(EStr "committed"); (EName "count_t")]); (ETuple [(EStr "shmem"); (EName "count_t")]); (ETuple [(EStr "shmrss"); (EName "count_t")]); (ETuple [(EStr "shmswp"); (EName "count_t")]); (ETuple [(EStr "slabreclaim"); (EName "count_t")]); (ETuple [(EStr "tothugepage"); (EName "count_t")]); (ETuple [(EStr "freehugepage"); (EName "count_t")]); (ETuple [(EStr "hugepagesz"); (EName "count_t")]); (ETuple [(EStr "vmwballoon"); (EName "count_t")]); (ETuple [(EStr "zfsarcsize"); (EName "count_t")]); (ETuple [(EStr "swapcached"); (EName "count_t")]); (ETuple [(EStr "cfuture"); (EBin OpMul (EName "count_t") (EInt 6))])])];
    (* atop_2_6.py:96-96 *) TopAssign "FreqCnt" (EAttr (EName "atop_1_26") "FreqCnt");
    (* atop_2_6.py:99-122 *) TopClass "PerCPU" [(EAttr (EName "ctypes") "Structure")] [
      CAssign "_fields_" (EList [(ETuple [(EStr "cpunr"); (EAttr (EName "ctypes") "c_int")]); (ETuple [(EStr "stime"); (EName "count_t")]); (ETuple [(EStr "utime"); (EName "count_t")]); (ETuple [(EStr "ntime"); (EName "count_t")]); (ETuple [(EStr "itime"); (EName "count_t")]); (ETuple [(EStr "wtime"); (EName "count_t")]); (ETuple [(EStr "Itime"); (EName "count_t")]); (ETuple [(EStr "Stime"); (EName "count_t")]); (ETuple [(EStr "steal"); (EName "count_t")]); (ETuple [(EStr "guest"); (EName "count_t")]); (ETuple [(EStr "freqcnt"); (EName "FreqCnt")]); (ETuple [(EStr "instr"); (EName "count_t")]); (ETuple [(EStr "cycle"); (EName "count_t")]); (ETuple [(EStr "cfuture"); (EBin OpMul (EName "count_t") (EInt 2))])])];
    (* atop_2_6.py:125-145 *) TopClass "CPUStat" [(EAttr (EName "ctypes") "Structure")] [
      CAssign "_fields_" (EList [(ETuple [(EStr "nrcpu"); (EName "count_t")]); (ETuple [(EStr "devint"); (EName "count_t")]); (ETuple [(EStr "csw"); (EName "count_t")]); (ETuple [(EStr "nprocs"); (EName "count_t")]); (ETuple [(EStr "lavg1"); (EAttr (EName "ctypes") "c_float")]); (ETuple [(EStr "lavg5"); (EAttr (EName "ctypes") "c_float")]); (ETuple [(EStr "lavg15"); (EAttr (EName "ctypes") "c_float")]); (ETuple [(EStr "cfuture"); (EBin OpMul (EName "count_t") (EInt 4))]); (ETuple [(EStr "all"); (EName "PerCPU")]); (ETuple [(EStr "cpu"); (EBin OpMul (EName "PerCPU") (EName "MAXCPU"))])]);
      CAssign "fields_limiters" (EDict [((EStr "cpu"), (EStr "nrcpu"))])];
    (* atop_2_6.py:148-148 *) TopAssign "PerDSK" (EAttr (EName "atop_2_3") "PerDSK");
    (* atop_2_6.py:151-151 *) TopAssign "DSKStat" (EAttr (EName "atop_2_3") "DSKStat");
    (* atop_2_6.py:154-154 *) TopAssign "PerIntf" (EAttr (EName "atop_2_3") "PerIntf");
    (* atop_2_6.py:157-157 *) TopAssign "IntfStat" (EAttr (EName "atop_2_3") "IntfStat");
    (* atop_2_6.py:160-160 *) TopAssign "PerNFSMount" (EAttr (EName "atop_2_3") "PerNFSMount");
    (* atop_2_6.py:163-163 *) TopAssign "Server" (EAttr (EName "atop_2_3") "Server");
    (* atop_2_6.py:166-166 *) TopAssign "Client" (EAttr (EName "atop_2_3") "Client");
    (* atop_2_6.py:169-169 *) TopAssign "NFSMounts" (EAttr (EName "atop_2_3") "NFSMounts");
    (* atop_2_6.py:172-172 *) TopAssign "NFSStat" (EAttr (EName "atop_2_3") "NFSStat");
    (* atop_2_6.py:175-175 *) TopAssign "PSI" (EAttr (EName "atop_2_4") "PSI");
    (* atop_2_6.py:178-178 *) TopAssign "Pressure" (EAttr (EName "atop_2_4") "Pressure");
    (* atop_2_6.py:181-181 *) TopAssign "PerContainer" (EAttr (EName "atop_2_3") "PerContainer");
    (* atop_2_6.py:184-184 *) TopAssign "ContStat" (EAttr (EName "atop_2_3") "ContStat");
    (* atop_2_6.py:187-187 *) TopAssign "WWWStat" (EAttr (EName "atop_1_26") "WWWStat");
    (* atop_2_6.py:190-190 *) TopAssign "PerGPU" (EAttr (EName "atop_2_4") "PerGPU");
    (* atop_2_6.py:193-193 *) TopAssign "GPUStat" (EAttr (EName "atop_2_4") "GPUStat");
    (* atop_2_6.py:196-196 *) TopAssign "PerIFB" (EAttr (EName "atop_2_4") "PerIFB");
    (* atop_2_6.py:199-199 *) TopAssign "IFBStat" (EAttr (EName "atop_2_4") "IFBStat");
    (* atop_2_6.py:202-202 *) TopAssign "IPv4Stats" (EAttr (EName "atop_1_26") "IPv4Stats");
    (* atop_2_6.py:205-205 *) TopAssign "ICMPv4Stats" (EAttr (EName "atop_1_26") "ICMPv4Stats");
    (* atop_2_6.py:208-208 *) TopAssign "UDPv4Stats" (EAttr (EName "atop_1_26") "UDPv4Stats");
    (* atop_2_6.py:211-211 *) TopAssign "TCPStats" (EAttr (EName "atop_1_26") "TCPStats");
    (* atop_2_6.py:214-214 *) TopAssign "IPv6Stats" (EAttr (EName "atop_1_26") "IPv6Stats");
    (* atop_2_6.py:217-217 *) TopAssign "ICMPv6Stats" (EAttr (EName "atop_1_26") "ICMPv6Stats");
    (* atop_2_6.py:220-220 *) TopAssign "UDPv6Stats" (EAttr (EName "atop_1_26") "UDPv6Stats");
    (* atop_2_6.py:223-223 *) TopAssign "NETStat" (EAttr (EName "atop_1_26") "NETStat");
    (* atop_2_6.py:226-245 *) TopClass "SStat" [(EAttr (EName "ctypes") "Structure")] [
      CAssign "_fields_" (EList [(ETuple [(EStr "cpu"); (EName "CPUStat")]); (ETuple [(EStr "mem"); (EName "MemStat")]); (ETuple [(EStr "net"); (EName "NETStat")]); (ETuple [(EStr "intf"); (EName "IntfStat")]); (ETuple [(EStr "dsk"); (EName "DSKStat")]); (ETuple [(EStr "nfs"); (EName "NFSStat")]); (ETuple [(EStr "cfs"); (EName "ContStat")]); (ETuple [(EStr "psi"); (EName "Pressure")]); (ETuple [(EStr "gpu"); (EName "GPUStat")]); (ETuple [(EStr "ifb"); (EName "IFBStat")]); (ETuple [(EStr "www"); (EName "WWWStat")])])];
    (* atop_2_6.py:248-248 *) TopAssign "GEN" (EAttr (EName "atop_2_3") "GEN");
    (* atop_2_6.py:251-272 *) TopClass "CPU" [(EAttr (EName "ctypes") "Structure")] [
      CAssign "_fields_" (EList [(ETuple [(EStr "utime"); (EName "count_t")]); (ETuple [(EStr "stime"); (EName "count_t")]); (ETuple [(EStr "nice"); (EAttr (EName "ctypes") "c_int")]); (ETuple [(EStr "prio"); (EAttr (EName "ctypes") "c_int")]); (ETuple [(EStr "rtprio"); (EAttr (EName "ctypes") "c_int")]); (ETuple [(EStr "policy"); (EAttr (EName "ctypes") "c_int")]); (ETuple [(EStr "curcpu"); (EAttr (EName "ctypes") "c_int")]); (ETuple [(EStr "sleepavg"); (EAttr (EName "ctypes") "c_int")]); (ETuple [(EStr "ifuture"); (EBin OpMul (EAttr (EName "ctypes") "c_int") (EInt 4))]); (ETuple [(EStr "wchan"); (EBin OpMul (EAttr (EName "ctypes") "c_char") (EInt 16))]); (ETuple [(EStr "rundelay"); (EName "count_t")]); (ETuple [(EStr "cfuture"); (EName "count_t")])])];
    (* atop_2_6.py:275-275 *) TopAssign "DSK" (EAttr (EName "atop_1_26") "DSK");
    (* atop_2_6.py:278-301 *) TopClass "MEM" [(EAttr (EName "ctypes") "Structure")] [
      CAssign "_fields_" (EList [(ETuple [(EStr "minflt"); (EName "count_t")]); (ETuple [(EStr "majflt"); (EName "count_t")]); (ETuple [(EStr "vexec"); (EName "count_t")]); (ETuple [(EStr "vmem"); (EName "count_t")]); (ETuple [(EStr "rmem"); (EName "count_t")]); (ETuple [(EStr "pmem"); (EName "count_t")]); (ETuple [(EStr "vgrow"); (EName "count_t")]); (ETuple [(EStr "rgrow"); (EName "count_t")]); (ETuple [(EStr "vdata"); (EName "count_t")]); (ETuple [(EStr "vstack"); (EName "count_t")]); (ETuple [(EStr "vlibs"); (EName "count_t")]); (ETuple [(EStr "vswap"); (EName "count_t")]); (ETuple [(EStr "vlock"); (EName "count_t")]); (ETuple [(EStr "cfuture"); (EBin OpMul (EName "count_t") (EInt 3))])])];
    (* atop_2_6.py:304-304 *) TopAssign "NET" (EAttr (EName "atop_2_3") "NET");
    (* atop_2_6.py:307-307 *) TopAssign "GPU" (EAttr (EName "atop_2_4") "GPU");
    (* atop_2_6.py:310-324 *) TopClass "TStat" [(EAttr (EName "ctypes") "Structure")] [
      CAssign "_fields_" (EList [(ETuple [(EStr "gen"); (EName "GEN")]); (ETuple [(EStr "cpu"); (EName "CPU")]); (ETuple [(EStr "dsk"); (EName "DSK")]); (ETuple [(EStr "mem"); (EName "MEM")]); (ETuple [(EStr "net"); (EName "NET")]); (ETuple [(EStr "gpu"); (EName "GPU")])])];
    (* atop_2_6.py:327-335 *) TopClass "Header" [(EAttr (EName "atop_2_3") "Header")] [
      CAssign "supported_version" (EStr "2.6");
      CAssign "Record" (EName "Record");
      CAssign "SStat" (EName "SStat");
      CAssign "TStat" (EName "TStat");
      CAssign "CStat" ENone;
      CAssign "CGChainer" ENone]].

(** atoparser/structs/atop_2_7.py *)
Definition text_atop_2_7 : list top :=
  [
    (* atop_2_7.py:16-16 *) TopImport "ctypes" "ctypes" None;
    (* atop_2_7.py:18-18 *) TopImport "atop_1_26" "atoparser.structs" (Some "atop_1_26");
    (* atop_2_7.py:19-19 *) TopImport "atop_2_3" "atoparser.structs" (Some "atop_2_3");
    (* atop_2_7.py:20-20 *) TopImport "atop_2_4" "atoparser.structs" (Some "atop_2_4");
    (* atop_2_7.py:21-21 *) TopImport "atop_2_6" "atoparser.structs" (Some "atop_2_6");
    (* atop_2_7.py:22-22 *) TopImport "count_t" "atoparser.structs.shared" (Some "count_t");
    (* atop_2_7.py:29-29 *) TopAssign "ACCTACTIVE" (EInt 1);
    (* atop_2_7.py:30-30 *) TopAssign "IOSTAT" (EInt 4);
    (* atop_2_7.py:31-31 *) TopAssign "NETATOP" (EInt 16);
    (* atop_2_7.py:32-32 *) TopAssign "NETATOPD" (EInt 32);
    (* atop_2_7.py:33-33 *) TopAssign "DOCKSTAT" (EInt 64);
    (* atop_2_7.py:34-34 *) TopAssign "GPUSTAT" (EInt 128);
    (* atop_2_7.py:37-37 *) TopAssign "PNAMLEN" (EInt 15);
    (* atop_2_7.py:38-38 *) TopAssign "CMDLEN" (EInt 255);
    (* atop_2_7.py:41-41 *) TopAssign "MAXCPU" (EInt 2048);
    (* atop_2_7.py:42-42 *) TopAssign "MAXDSK" (EInt 1024);
    (* atop_2_7.py:43-43 *) TopAssign "MAXNUMA" (EInt 1024);
    (* atop_2_7.py:44-44 *) TopAssign "MAXLVM" (EInt 2048);
    (* atop_2_7.py:45-45 *) TopAssign "MAXMDD" (EInt 256);
    (* atop_2_7.py:46-46 *) TopAssign "MAXINTF" (EInt 128);
    (* atop_2_7.py:47-47 *) TopAssign "MAXCONTAINER" (EInt 128);
    (* atop_2_7.py:48-48 *) TopAssign "MAXNFSMOUNT" (EInt 64);
    (* atop_2_7.py:49-49 *) TopAssign "MAXIBPORT" (EInt 32);
    (* atop_2_7.py:50-50 *) TopAssign "MAXGPU" (EInt 32);
    (* atop_2_7.py:51-51 *) TopAssign "MAXGPUBUS" (EInt 12);
    (* atop_2_7.py:52-52 *) TopAssign "MAXGPUTYPE" (EInt 12);
    (* atop_2_7.py:53-53 *) TopAssign "MAXDKNAM" (EInt 32);
    (* atop_2_7.py:54-54 *) TopAssign "MAXIBNAME" (EInt 12);
    (* atop_2_7.py:57-57 *) TopAssign "Record" (EAttr (EName "atop_2_3") "Record");
    (* atop_2_7.py:60-103 *) TopClass "MemStat" [(EAttr (EName "ctypes") "Structure")] [
      CAssign "_fields_" (EList [(ETuple [(EStr "physmem"); (EName "count_t")]); (ETuple [(EStr "freemem"); (EName "count_t")]); (ETuple [(EStr "buffermem"); (EName "count_t")]); (ETuple [(EStr "slabmem"); (EName "count_t")]); (ETuple [(EStr "cachemem"); (EName "count_t")]); (ETuple [(EStr "cachedrt"); (EName "count_t")]); (ETuple [(EStr "totswap"); (EName "count_t")]); (ETuple [(EStr "freeswap"); (EName "count_t")]); (ETuple [(EStr "pgscans"); (EName "count_t")]); (ETuple [(EStr "pgsteal"); (EName "count_t")]); (ETuple [(EStr "allocstall"); (EName "count_t")]); (ETuple [(EStr "swouts"); (EName "count_t")]); (ETuple [(EStr "swins"); (EName "count_t")]); (ETuple [(EStr "commitlim"); (EName "count_t")]); (ETuple [(EStr "committed"); (EName "count_t")]); (ETuple [(EStr "shmem"); (EName "count_t")]); (ETuple [(EStr "shmrss"); (EName "count_t")]); (ETuple [(EStr "shmswp"); (EName "count_t")]); (ETuple [(EStr "slabreclaim"); (EName "count_t")]); (ETuple [(EStr "tothugepage"); (EName "count_t")]); (ETuple [(EStr "freehugepage"); (EName "count_t")]); (ETuple [(EStr "hugepagesz"); (EName "count_t")]); (ETuple [(EStr "vmwballoon"); (EName "count_t")]); (ETuple [(EStr "zfsarcsize"); (EName "count_t")]); (ETuple [(EStr "swapcached"); (EName "count_t")]); (ETuple [(EStr "ksmsharing"); (EName "count_t")]); (ETuple [(EStr "ksmshared"); (EName "count_t")]); (ETuple [(EStr "zswstored"); (EName "count_t")]); (ETuple [(EStr "zswtotpool"); (EName "count_t")]); (ETuple [(EStr "oomkills"); (EName "count_t")]); (ETuple [(EStr "compactstall"); (EName "count_t")]); (ETuple [(EStr "pgmigrate"); (EName "count_t")]); (ETuple [(EStr "numamigrate"); (EName "count_t")]); (ETuple [(EStr "cfuture"); (EBin OpMul (EName "count_t") (EInt 9))])])];
    (* atop_2_7.py:106-126 *) TopClass "MemPerNUMA" [(EAttr (EName "ctypes") "Structure")] [
      CAssign "_fields_" (EList [(ETuple [(EStr "frag"); (EAttr (EName "ctypes") "c_float")]); (ETuple [(EStr "totmem"); (EName "count_t")]); (ETuple [(EStr "freemem"); (EName "count_t")]); (ETuple [(EStr "filepage"); (EName "count_t")]); (ETuple [(EStr "dirtymem"); (EName "count_t")]); (ETuple [(EStr "slabmem"); (EName "count_t")]); (ETuple [(EStr "slabreclaim"); (EName "count_t")]); (ETuple [(EStr "active"); (EName "count_t")]); (ETuple [(EStr "inactive"); (EName "count_t")]); (ETuple [(EStr "shmem"); (EName "count_t")]); (ETuple [(EStr "tothp"); (EName "count_t")])])];
    (* atop_2_7.py:129-141 *) TopClass "MemNUMA" [(EAttr (EName "ctypes") "Structure")] [
      CAssign "_fields_" (EList [(ETuple [(EStr "nrnuma"); (EName "count_t")]); (ETuple [(EStr "numa"); (EBin OpMul (EName "MemPerNUMA") (EName "MAXNUMA"))])]);
      CAssign "fields_limiters" (EDict [((EStr "numa"), (EStr "nrnuma"))])];
    (* atop_2_7.py:144-163 *) TopClass "CPUPerNUMA" [(EAttr (EName "ctypes") "Structure")] [
      CAssign "_fields_" (EList [(ETuple [(EStr "nrcpu"); (EName "count_t")]); (ETuple [(EStr "stime"); (EName "count_t")]); (ETuple [(EStr "utime"); (EName "count_t")]); (ETuple [(EStr "ntime"); (EName "count_t")]); (ETuple [(EStr "itime"); (EName "count_t")]); (ETuple [(EStr "wtime"); (EName "count_t")]); (ETuple [(EStr "Itime"); (EName "count_t")]); (ETuple [(EStr "Stime"); (EName "count_t")]); (ETuple [(EStr "steal"); (EName "count_t")]); (ETuple [(EStr "guest"); (EName "count_t")])])];
    (* atop_2_7.py:166-178 *) TopClass "CPUNUMA" [(EAttr (EName "ctypes") "Structure")] [
      CAssign "_fields_" (EList [(ETuple [(EStr "nrnuma"); (EName "count_t")]); (ETuple [(EStr "numa"); (EBin OpMul (EName "CPUPerNUMA") (EName "MAXNUMA"))])]);
      CAssign "fields_limiters" (EDict [((EStr "numa"), (EStr "nrnuma"))])];
    (* atop_2_7.py:181-181 *) TopAssign "FreqCnt" (EAttr (EName "atop_1_26") "FreqCnt");
    (* atop_2_7.py:184-207 *) TopClass "PerCPU" [(EAttr (EName "ctypes") "Structure")] [
      CAssign "_fields_" (EList [(ETuple [(EStr "cpunr"); (EAttr (EName "ctypes") "c_int")]); (ETuple [(EStr "stime"); (EName "count_t")]); (ETuple [(EStr "utime"); (EName "count_t")]); (ETuple [(EStr "ntime"); (EName "count_t")]); (ETuple [(EStr "itime"); (EName "count_t")]); (ETuple [(EStr "wtime"); (EName "count_t")]); (ETuple [(EStr "Itime"); (EName "count_t")]); (ETuple [(EStr "Stime"); (EName "count_t")]); (ETuple [(EStr "steal"); (EName "count_t")]); (ETuple [(EStr "guest"); (EName "count_t")]); (ETuple [(EStr "freqcnt"); (EName "FreqCnt")]); (ETuple [(EStr "instr"); (EName "count_t")]); (ETuple [(EStr "cycle"); (EName "count_t")]); (ETuple [(EStr "cfuture"); (EBin OpMul (EName "count_t") (EInt 6))])])];
    (* atop_2_7.py:210-230 *) TopClass "CPUStat" [(EAttr (EName "ctypes") "Structure")] [
      CAssign "_fields_" (EList [(ETuple [(EStr "nrcpu"); (EName "count_t")]); (ETuple [(EStr "devint"); (EName "count_t")]); (ETuple [(EStr "csw"); (EName "count_t")]); (ETuple [(EStr "nprocs"); (EName "count_t")]); (ETuple [(EStr "lavg1"); (EAttr (EName "ctypes") "c_float")]); (ETuple [(EStr "lavg5"); (EAttr (EName "ctypes") "c_float")]); (ETuple [(EStr "lavg15"); (EAttr (EName "ctypes") "c_float")]); (ETuple [(EStr "cfuture"); (EBin OpMul (EName "count_t") (EInt 4))]); (ETuple [(EStr "all"); (EName "PerCPU")]); (ETuple [(EStr "cpu"); (EBin OpMul (EName "PerCPU") (EName "MAXCPU"))])]);
      CAssign "fields_limiters" (EDict [((EStr "cpu"), (EStr "nrcpu"))])];
    (* atop_2_7.py:233-252 *) TopClass "PerDSK" [(EAttr (EName "ctypes") "Structure")] [
      CAssign "_fields_" (EList [(ETuple [(EStr "name"); (EBin OpMul (EAttr (EName "ctypes") "c_char") (EName "MAXDKNAM"))]); (ETuple [(EStr "nread"); (EName "count_t")]); (ETuple [(EStr "nrsect"); (EName "count_t")]); (ETuple [(EStr "nwrite"); (EName "count_t")]); (ETuple [(EStr "nwsect"); (EName "count_t")]); (ETuple [(EStr "io_ms"); (EName "count_t")]); (ETuple [(EStr "avque"); (EName "count_t")]); (ETuple [(EStr "ndisc"); (EName "count_t")]); (ETuple [(EStr "ndsect"); (EName "count_t")]); (ETuple [(EStr "cfuture"); (EBin OpMul (EName "count_t") (EInt 2))])])];
    (* atop_2_7.py:255-275 *) TopClass "DSKStat" [(EAttr (EName "ctypes") "Structure")] [
      CAssign "_fields_" (EList [(ETuple [(EStr "ndsk"); (EAttr (EName "ctypes") "c_int")]); (ETuple [(EStr "nmdd"); (EAttr (EName "ctypes") "c_int")]); (ETuple [(EStr "nlvm"); (EAttr (EName "ctypes") "c_int")]); (ETuple [(EStr "dsk"); (EBin OpMul (EName "PerDSK") (EName "MAXDSK"))]); (ETuple [(EStr "mdd"); (EBin OpMul (EName "PerDSK") (EName "MAXMDD"))]); (ETuple [(EStr "lvm"); (EBin OpMul (EName "PerDSK") (EName "MAXLVM"))])]);
      CAssign "fields_limiters" (EDict [((EStr "dsk"), (EStr "ndsk")); ((EStr "mdd"), (EStr "nmdd")); ((EStr "lvm"), (EStr "nlvm"))])];
    (* atop_2_7.py:278-278 *) TopAssign "PerIntf" (EAttr (EName "atop_2_3") "PerIntf");
    (* atop_2_7.py:281-281 *) TopAssign "IntfStat" (EAttr (EName "atop_2_3") "IntfStat");
    (* atop_2_7.py:284-284 *) TopAssign "PerNFSMount" (EAttr (EName "atop_2_3") "PerNFSMount");
    (* atop_2_7.py:287-287 *) TopAssign "Server" (EAttr (EName "atop_2_3") "Server");
    (* atop_2_7.py:290-290 *) TopAssign "Client" (EAttr (EName "atop_2_3") "Client");
    (* atop_2_7.py:293-293 *) TopAssign "NFSMounts" (EAttr (EName "atop_2_3") "NFSMounts");
    (* atop_2_7.py:296-296 *) TopAssign "NFSStat" (EAttr (EName "atop_2_3") "NFSStat");
    (* atop_2_7.py:299-299 *) TopAssign "PSI" (EAttr (EName "atop_2_4") "PSI");
    (* atop_2_7.py:302-302 *) TopAssign "Pressure" (EAttr (EName "atop_2_4") "Pressure");
    (* atop_2_7.py:305-305 *) TopAssign "PerContainer" (EAttr (EName "atop_2_3") "PerContainer");
    (* atop_2_7.py:308-308 *) TopAssign "ContStat" (EAttr (EName "atop_2_3") "ContStat");
    (* atop_2_7.py:311-311 *) TopAssign "WWWStat" (EAttr (EName "atop_1_26") "WWWStat");
    (* atop_2_7.py:314-314 *) TopAssign "PerGPU" (EAttr (EName "atop_2_4") "PerGPU");
    (* atop_2_7.py:317-317 *) TopAssign "GPUStat" (EAttr (EName "atop_2_4") "GPUStat");
    (* atop_2_7.py:320-320 *) TopAssign "PerIFB" (EAttr (EName "atop_2_4") "PerIFB");
    (* atop_2_7.py:323-323 *) TopAssign "IFBStat" (EAttr (EName "atop_2_4") "IFBStat");
    (* atop_2_7.py:326-326 *) TopAssign "IPv4Stats" (EAttr (EName "atop_1_26") "IPv4Stats");
    (* atop_2_7.py:329-329 *) TopAssign "ICMPv4Stats" (EAttr (EName "atop_1_26") "ICMPv4Stats");
    (* atop_2_7.py:332-332 *) TopAssign "UDPv4Stats" (EAttr (EName "atop_1_26") "UDPv4Stats");
    (* atop_2_7.py:335-335 *) TopAssign "TCPStats" (EAttr (EName "atop_1_26") "TCPStats");
    (* atop_2_7.py:338-338 *) TopAssign "IPv6Stats" (EAttr (EName "atop_1_26") "IPv6Stats");
    (* atop_2_7.py:341-341 *) TopAssign "ICMPv6Stats" (EAttr (EName "atop_1_26") "ICMPv6Stats");
    (* atop_2_7.py:344-344 *) TopAssign "UDPv6Stats" (EAttr (EName "atop_1_26") "UDPv6Stats");
    (* atop_2_7.py:347-347 *) TopAssign "NETStat" (EAttr (EName "atop_1_26") "NETStat");
    (* atop_2_7.py:350-371 *) TopClass "SStat" [(EAttr (EName "ctypes") "Structure")] [
      CAssign "_fields_" (EList [(ETuple [(EStr "cpu"); (EName "CPUStat")]); (ETuple [(EStr "mem"); (EName "MemStat")]); (ETuple [(EStr "net"); (EName "NETStat")]); (ETuple [(EStr "intf"); (EName "IntfStat")]); (ETuple [(EStr "memnuma"); (EName "MemNUMA")]); (ETuple [(EStr "cpunuma"); (EName "CPUNUMA")]); (ETuple [(EStr "dsk"); (EName "DSKStat")]); (ETuple [(EStr "nfs"); (EName "NFSStat")]); (ETuple [(EStr "cfs"); (EName "ContStat")]); (ETuple [(EStr "psi"); (EName "Pressure")]); (ETuple [(EStr "gpu"); (EName "GPUStat")]); (ETuple [(EStr "ifb"); (EName "IFBStat")]); (ETuple [(EStr "www"); (EName "WWWStat")])])];
    (* atop_2_7.py:374-374 *) TopAssign "GEN" (EAttr (EName "atop_2_3") "GEN");
    (* atop_2_7.py:377-377 *) TopAssign "CPU" (EAttr (EName "atop_2_6") "CPU");
    (* atop_2_7.py:380-380 *) TopAssign "DSK" (EAttr (EName "atop_1_26") "DSK");
    (* atop_2_7.py:383-383 *) TopAssign "MEM" (EAttr (EName "atop_2_6") "MEM");
    (* atop_2_7.py:386-386 *) TopAssign "NET" (EAttr (EName "atop_2_3") "NET");
    (* atop_2_7.py:389-389 *) TopAssign "GPU" (EAttr (EName "atop_2_4") "GPU");
    (* atop_2_7.py:392-392 *) TopAssign "TStat" (EAttr (EName "atop_2_6") "TStat");
    (* atop_2_7.py:395-403 *) TopClass "Header" [(EAttr (EName "atop_2_3") "Header")] [
      CAssign "supported_version" (EStr "2.7");
      CAssign "Record" (EName "Record");
      CAssign "SStat" (EName "SStat");
      CAssign "TStat" (EName "TStat");
      CAssign "CStat" ENone;
      CAssign "CGChainer" ENone]].

(** atoparser/structs/atop_2_8.py *)
Definition text_atop_2_8 : list top :=
  [
    (* atop_2_8.py:16-16 *) TopImport "ctypes" "ctypes" None;
    (* atop_2_8.py:18-18 *) TopImport "atop_1_26" "atoparser.structs" (Some "atop_1_26");
    (* atop_2_8.py:19-19 *) TopImport "atop_2_3" "atoparser.structs" (Some "atop_2_3");
    (* atop_2_8.py:20-20 *) TopImport "atop_2_4" "atoparser.structs" (Some "atop_2_4");
    (* atop_2_8.py:21-21 *) TopImport "atop_2_7" "atoparser.structs" (Some "atop_2_7");
    (* atop_2_8.py:22-22 *) TopImport "HeaderMixin" "atoparser.structs.shared" (Some "HeaderMixin");
    (* atop_2_8.py:23-23 *) TopImport "UTSName" "atoparser.structs.shared" (Some "UTSName");
    (* atop_2_8.py:24-24 *) TopImport "count_t" "atoparser.structs.shared" (Some "count_t");
    (* atop_2_8.py:25-25 *) TopImport "time_t" "atoparser.structs.shared" (Some "time_t");
    (* atop_2_8.py:32-32 *) TopAssign "ACCTACTIVE" (EInt 1);
    (* atop_2_8.py:33-33 *) TopAssign "IOSTAT" (EInt 4);
    (* atop_2_8.py:34-34 *) TopAssign "NETATOP" (EInt 16);
    (* atop_2_8.py:35-35 *) TopAssign "NETATOPD" (EInt 32);
    (* atop_2_8.py:36-36 *) TopAssign "DOCKSTAT" (EInt 64);
    (* atop_2_8.py:37-37 *) TopAssign "GPUSTAT" (EInt 128);
    (* atop_2_8.py:38-38 *) TopAssign "CGROUPV2" (EInt 256);
    (* atop_2_8.py:41-41 *) TopAssign "PNAMLEN" (EInt 15);
    (* atop_2_8.py:42-42 *) TopAssign "CMDLEN" (EInt 255);
    (* atop_2_8.py:43-43 *) TopAssign "CGRLEN" (EInt 64);
    (* atop_2_8.py:46-46 *) TopAssign "MAXCPU" (EInt 2048);
    (* atop_2_8.py:47-47 *) TopAssign "MAXDSK" (EInt 1024);
    (* atop_2_8.py:48-48 *) TopAssign "MAXNUMA" (EInt 1024);
    (* atop_2_8.py:49-49 *) TopAssign "MAXLVM" (EInt 2048);
    (* atop_2_8.py:50-50 *) TopAssign "MAXMDD" (EInt 256);
    (* atop_2_8.py:51-51 *) TopAssign "MAXINTF" (EInt 128);
    (* atop_2_8.py:52-52 *) TopAssign "MAXCONTAINER" (EInt 128);
    (* atop_2_8.py:53-53 *) TopAssign "MAXNFSMOUNT" (EInt 64);
    (* atop_2_8.py:54-54 *) TopAssign "MAXIBPORT" (EInt 32);
    (* atop_2_8.py:55-55 *) TopAssign "MAXGPU" (EInt 32);
    (* atop_2_8.py:56-56 *) TopAssign "MAXGPUBUS" (EInt 12);
    (* atop_2_8.py:57-57 *) TopAssign "MAXGPUTYPE" (EInt 12);
    (* atop_2_8.py:58-58 *) TopAssign "MAXLLC" (EInt 256);
    (* atop_2_8.py:59-59 *) TopAssign "MAXDKNAM" (EInt 32);
    (* atop_2_8.py:60-60 *) TopAssign "MAXIBNAME" (EInt 12);
    (* atop_2_8.py:63-94 *) TopClass "Record" [(EAttr (EName "ctypes") "Structure")] [
      CAssign "_fields_" (EList [(ETuple [(EStr "curtime"); (EName "time_t")]); (ETuple [(EStr "flags"); (EAttr (EName "ctypes") "c_ushort")]); (ETuple [(EStr "ncgroups"); (EAttr (EName "ctypes") "c_ushort")]); (ETuple [(EStr "sfuture"); (EBin OpMul (EAttr (EName "ctypes") "c_ushort") (EInt 2))]); (ETuple [(EStr "scomplen"); (EAttr (EName "ctypes") "c_uint")]); (ETuple [(EStr "pcomplen"); (EAttr (EName "ctypes") "c_uint")]); (ETuple [(EStr "interval"); (EAttr (EName "ctypes") "c_uint")]); (ETuple [(EStr "ndeviat"); (EAttr (EName "ctypes") "c_uint")]); (ETuple [(EStr "nactproc"); (EAttr (EName "ctypes") "c_uint")]); (ETuple [(EStr "ntask"); (EAttr (EName "ctypes") "c_uint")]); (ETuple [(EStr "totproc"); (EAttr (EName "ctypes") "c_uint")]); (ETuple [(EStr "totrun"); (EAttr (EName "ctypes") "c_uint")]); (ETuple [(EStr "totslpi"); (EAttr (EName "ctypes") "c_uint")]); (ETuple [(EStr "totslpu"); (EAttr (EName "ctypes") "c_uint")]); (ETuple [(EStr "totzomb"); (EAttr (EName "ctypes") "c_uint")]); (ETuple [(EStr "nexit"); (EAttr (EName "ctypes") "c_uint")]); (ETuple [(EStr "noverflow"); (EAttr (EName "ctypes") "c_uint")]); (ETuple [(EStr "totidle"); (EAttr (EName "ctypes") "c_uint")]); (ETuple [(EStr "ccomplen"); (EAttr (EName "ctypes") "c_uint")]); (ETuple [(EStr "coriglen"); (EAttr (EName "ctypes") "c_uint")]); (ETuple [(EStr "ncgpids"); (EAttr (EName "ctypes") "c_uint")]); (ETuple [(EStr "icomplen"); (EAttr (EName "ctypes") "c_uint")]); (ETuple [(EStr "ifuture"); (EAttr (EName "ctypes") "c_uint")])])];
    (* atop_2_8.py:97-145 *) TopClass "MemStat" [(EAttr (EName "ctypes") "Structure")] [
      CAssign "_fields_" (EList [(ETuple [(EStr "physmem"); (EName "count_t")]); (ETuple [(EStr "freemem"); (EName "count_t")]); (ETuple [(EStr "buffermem"); (EName "count_t")]); (ETuple [(EStr "slabmem"); (EName "count_t")]); (ETuple [(EStr "cachemem"); (EName "count_t")]); (ETuple [(EStr "cachedrt"); (EName "count_t")]); (ETuple [(EStr "totswap"); (EName "count_t")]); (ETuple [(EStr "freeswap"); (EName "count_t")]); (ETuple [(EStr "pgscans"); (EName "count_t")]); (ETuple [(EStr "pgsteal"); (EName "count_t")]); (ETuple [(EStr "allocstall"); (EName "count_t")]); (ETuple [(EStr "swouts"); (EName "count_t")]); (ETuple [(EStr "swins"); (EName "count_t")]); (ETuple [(EStr "tcpsock"); (EName "count_t")]); (ETuple [(EStr "udpsock"); (EName "count_t")]); (ETuple [(EStr "commitlim"); (EName "count_t")]); (ETuple [(EStr "committed"); (EName "count_t")]); (ETuple [(EStr "shmem"); (EName "count_t")]); (ETuple [(EStr "shmrss"); (EName "count_t")]); (ETuple [(EStr "shmswp"); (EName "count_t")]); (ETuple [(EStr "slabreclaim"); (EName "count_t")]); (ETuple [(EStr "tothugepage"); (EName "count_t")]); (ETuple [(EStr "freehugepage"); (EName "count_t")]); (ETuple [(EStr "hugepagesz"); (EName "count_t")]); (ETuple [(EStr "vmwballoon"); (EName "count_t")]); (ETuple [(EStr "zfsarcsize"); (EName "count_t")]); (ETuple [(EStr "swapcached"); (EName "count_t")]); (ETuple [(EStr "ksmsharing"); (EName "count_t")]); (ETuple [(EStr "ksmshared"); (EName "count_t")]); (ETuple [(EStr "zswstored"); (EName "count_t")]); (ETuple [(EStr "zswtotpool"); (EName "count_t")]); (ETuple [(EStr "oomkills"); (EName "count_t")]); (ETuple [(EStr "compactstall"); (EName "count_t")]); (ETuple [(EStr "pgmigrate"); (EName "count_t")]); (ETuple [(EStr "numamigrate"); (EName "count_t")]); (ETuple [(EStr "pgouts"); (EName "count_t")]); (ETuple [(EStr "pgins"); (EName "count_t")]); (ETuple [(EStr "pagetables"); (EName "count_t")]); (ETuple [(EStr "cfuture"); (EBin OpMul (EName "count_t") (EInt 4))])])];
    (* atop_2_8.py:148-169 *) TopClass "MemPerNUMA" [(EAttr (EName "ctypes") "Structure")] [
      CAssign "_fields_" (EList [(ETuple [(EStr "numanr"); (EAttr (EName "ctypes") "c_int")]); (ETuple [(EStr "frag"); (EAttr (EName "ctypes") "c_float")]); (ETuple [(EStr "totmem"); (EName "count_t")]); (ETuple [(EStr "freemem"); (EName "count_t")]); (ETuple [(EStr "filepage"); (EName "count_t")]); (ETuple [(EStr "dirtymem"); (EName "count_t")]); (ETuple [(EStr "slabmem"); (EName "count_t")]); (ETuple [(EStr "slabreclaim"); (EName "count_t")]); (ETuple [(EStr "active"); (EName "count_t")]); (ETuple [(EStr "inactive"); (EName "count_t")]); (ETuple [(EStr "shmem"); (EName "count_t")]); (ETuple [(EStr "tothp"); (EName "count_t")])])];
    (* atop_2_8.py:172-184 *) TopClass "MemNUMA" [(EAttr (EName "ctypes") "Structure")] [
      CAssign "_fields_" (EList [(ETuple [(EStr "nrnuma"); (EName "count_t")]); (ETuple [(EStr "numa"); (EBin OpMul (EName "MemPerNUMA") (EName "MAXNUMA"))])]);
      CAssign "fields_limiters" (EDict [((EStr "numa"), (EStr "nrnuma"))])];
    (* atop_2_8.py:187-207 *) TopClass "CPUPerNUMA" [(EAttr (EName "ctypes") "Structure")] [
      CAssign "_fields_" (EList [(ETuple [(EStr "numanr"); (EAttr (EName "ctypes") "c_int")]); (ETuple [(EStr "nrcpu"); (EName "count_t")]); (ETuple [(EStr "stime"); (EName "count_t")]); (ETuple [(EStr "utime"); (EName "count_t")]); (ETuple [(EStr "ntime"); (EName "count_t")]); (ETuple [(EStr "itime"); (EName "count_t")]); (ETuple [(EStr "wtime"); (EName "count_t")]); (ETuple [(EStr "Itime"); (EName "count_t")]); (ETuple [(EStr "Stime"); (EName "count_t")]); (ETuple [(EStr "steal"); (EName "count_t")]); (ETuple [(EStr "guest"); (EName "count_t")])])];
    (* atop_2_8.py:210-222 *) TopClass "CPUNUMA" [(EAttr (EName "ctypes") "Structure")] [
      CAssign "_fields_" (EList [(ETuple [(EStr "nrnuma"); (EName "count_t")]); (ETuple [(EStr "numa"); (EBin OpMul (EName "CPUPerNUMA") (EName "MAXNUMA"))])]);
      CAssign "fields_limiters" (EDict [((EStr "numa"), (EStr "nrnuma"))])];
    (* atop_2_8.py:225-225 *) TopAssign "FreqCnt" (EAttr (EName "atop_1_26") "FreqCnt");
    (* atop_2_8.py:228-228 *) TopAssign "PerCPU" (EAttr (EName "atop_2_7") "PerCPU");
    (* atop_2_8.py:231-231 *) TopAssign "CPUStat" (EAttr (EName "atop_2_7") "CPUStat");
    (* atop_2_8.py:234-254 *) TopClass "PerDSK" [(EAttr (EName "ctypes") "Structure")] [
      CAssign "_fields_" (EList [(ETuple [(EStr "name"); (EBin OpMul (EAttr (EName "ctypes") "c_char") (EName "MAXDKNAM"))]); (ETuple [(EStr "nread"); (EName "count_t")]); (ETuple [(EStr "nrsect"); (EName "count_t")]); (ETuple [(EStr "nwrite"); (EName "count_t")]); (ETuple [(EStr "nwsect"); (EName "count_t")]); (ETuple [(EStr "io_ms"); (EName "count_t")]); (ETuple [(EStr "avque"); (EName "count_t")]); (ETuple [(EStr "ndisc"); (EName "count_t")]); (ETuple [(EStr "ndsect"); (EName "count_t")]); (ETuple [(EStr "inflight"); (EName "count_t")]); (ETuple [(EStr "cfuture"); (EBin OpMul (EName "count_t") (EInt 3))])])];
    (* atop_2_8.py:257-277 *) TopClass "DSKStat" [(EAttr (EName "ctypes") "Structure")] [
      CAssign "_fields_" (EList [(ETuple [(EStr "ndsk"); (EAttr (EName "ctypes") "c_int")]); (ETuple [(EStr "nmdd"); (EAttr (EName "ctypes") "c_int")]); (ETuple [(EStr "nlvm"); (EAttr (EName "ctypes") "c_int")]); (ETuple [(EStr "dsk"); (EBin OpMul (EName "PerDSK") (EName "MAXDSK"))]); (ETuple [(EStr "mdd"); (EBin OpMul (EName "PerDSK") (EName "MAXMDD"))]); (ETuple [(EStr "lvm"); (EBin OpMul (EName "PerDSK") (EName "MAXLVM"))])]);
      CAssign "fields_limiters" (EDict [((EStr "dsk"), (EStr "ndsk")); ((EStr "mdd"), (EStr "nmdd")); ((EStr "lvm"), (EStr "nlvm"))])];
    (* atop_2_8.py:280-280 *) TopAssign "PerIntf" (EAttr (EName "atop_2_3") "PerIntf");
    (* atop_2_8.py:283-283 *) TopAssign "IntfStat" (EAttr (EName "atop_2_3") "IntfStat");
    (* atop_2_8.py:286-286 *) TopAssign "PerNFSMount" (EAttr (EName "atop_2_3") "PerNFSMount");
    (* atop_2_8.py:289-289 *) TopAssign "Server" (EAttr (EName "atop_2_3") "Server");
    (* atop_2_8.py:292-292 *) TopAssign "Client" (EAttr (EName "atop_2_3") "Client");
    (* atop_2_8.py:295-295 *) TopAssign "NFSMounts" (EAttr (EName "atop_2_3") "NFSMounts");
    (* atop_2_8.py:298-298 *) TopAssign "NFSStat" (EAttr (EName "atop_2_3") "NFSStat");
    (* atop_2_8.py:301-301 *) TopAssign "PSI" (EAttr (EName "atop_2_4") "PSI");
    (* atop_2_8.py:304-304 *) TopAssign "Pressure" (EAttr (EName "atop_2_4") "Pressure");
    (* atop_2_8.py:307-307 *) TopAssign "PerContainer" (EAttr (EName "atop_2_3") "PerContainer");
    (* atop_2_8.py:310-310 *) TopAssign "ContStat" (EAttr (EName "atop_2_3") "ContStat");
    (* atop_2_8.py:313-313 *) TopAssign "WWWStat" (EAttr (EName "atop_1_26") "WWWStat");
    (* atop_2_8.py:316-316 *) TopAssign "PerGPU" (EAttr (EName "atop_2_4") "PerGPU");
    (* atop_2_8.py:319-319 *) TopAssign "GPUStat" (EAttr (EName "atop_2_4") "GPUStat");
    (* atop_2_8.py:322-322 *) TopAssign "PerIFB" (EAttr (EName "atop_2_4") "PerIFB");
    (* atop_2_8.py:325-325 *) TopAssign "IFBStat" (EAttr (EName "atop_2_4") "IFBStat");
    (* atop_2_8.py:328-341 *) TopClass "PerLLC" [(EAttr (EName "ctypes") "Structure")] [
      CAssign "_fields_" (EList [(ETuple [(EStr "id"); (EAttr (EName "ctypes") "c_uint8")]); (ETuple [(EStr "occupancy"); (EAttr (EName "ctypes") "c_float")]); (ETuple [(EStr "mbm_local"); (EName "count_t")]); (ETuple [(EStr "mbm_total"); (EName "count_t")])])];
    (* atop_2_8.py:344-356 *) TopClass "LLCStat" [(EAttr (EName "ctypes") "Structure")] [
      CAssign "_fields_" (EList [(ETuple [(EStr "nrllcs"); (EAttr (EName "ctypes") "c_int")]); (ETuple [(EStr "perllc"); (EBin OpMul (EName "PerLLC") (EName "MAXLLC"))])]);
      CAssign "fields_limiters" (EDict [((EStr "perllc"), (EStr "nrllcs"))])];
    (* atop_2_8.py:359-359 *) TopAssign "IPv4Stats" (EAttr (EName "atop_1_26") "IPv4Stats");
    (* atop_2_8.py:362-398 *) TopClass "ICMPv4Stats" [(EAttr (EName "ctypes") "Structure")] [
      CAssign "_fields_" (EList [(ETuple [(EStr "InMsgs"); (EName "count_t")]); (ETuple [(EStr "InErrors"); (EName "count_t")]); (ETuple [(EStr "InCsumErrors"); (EName "count_t")]); (ETuple [(EStr "InDestUnreachs"); (EName "count_t")]); (ETuple [(EStr "InTimeExcds"); (EName "count_t")]); (ETuple [(EStr "InParmProbs"); (EName "count_t")]); (ETuple [(EStr "InSrcQuenchs"); (EName "count_t")]); (ETuple [(EStr "InRedirects"); (EName "count_t")]); (ETuple [(EStr "InEchos"); (EName "count_t")]); (ETuple [(EStr "InEchoReps"); (EName "count_t")]); (ETuple [(EStr "InTimestamps"); (EName "count_t")]); (ETuple [(EStr "InTimestampReps"); (EName "count_t")]); (ETuple [(EStr "InAddrMasks"); (EName "count_t")]); (ETuple [(EStr "InAddrMaskReps"); (EName "count_t")]); (ETuple [(EStr "OutMsgs"); (EName "count_t")]); (ETuple [(EStr "OutErrors"); (EName "count_t")]); (ETuple [(EStr "OutDestUnreachs"); (EName "count_t")]); (ETuple [(EStr "OutTimeExcds"); (EName "count_t")]); (ETuple [(EStr "OutParmProbs"); (EName "count_t")]); (ETuple [(EStr "OutSrcQuenchs"); (EName "count_t")]); (ETuple [(EStr "OutRedirects"); (EName "count_t")]); (ETuple [(EStr "OutEchos"); (EName "count_t")]); (ETuple [(EStr "OutEchoReps"); (EName "count_t")]); (ETuple [(EStr "OutTimestamps"); (EName "count_t")]); (ETuple [(EStr "OutTimestampReps"); (EName "count_t")]); (ETuple [(EStr "OutAddrMasks"); (EName "count_t")]); (ETuple [(EStr "OutAddrMaskReps"); (EName "count_t")])])];
    (* atop_2_8.py:401-401 *) TopAssign "UDPv4Stats" (EAttr (EName "atop_1_26") "UDPv4Stats");
    (* atop_2_8.py:404-404 *) TopAssign "TCPStats" (EAttr (EName "atop_1_26") "TCPStats");
    (* atop_2_8.py:407-407 *) TopAssign "IPv6Stats" (EAttr (EName "atop_1_26") "IPv6Stats");
    (* atop_2_8.py:410-410 *) TopAssign "ICMPv6Stats" (EAttr (EName "atop_1_26") "ICMPv6Stats");
    (* atop_2_8.py:413-413 *) TopAssign "UDPv6Stats" (EAttr (EName "atop_1_26") "UDPv6Stats");
    (* atop_2_8.py:416-432 *) TopClass "NETStat" [(EAttr (EName "ctypes") "Structure")] [
      CAssign "_fields_" (EList [(ETuple [(EStr "ipv4"); (EName "IPv4Stats")]); (ETuple [(EStr "icmpv4"); (EName "ICMPv4Stats")]); (ETuple [(EStr "udpv4"); (EName "UDPv4Stats")]); (ETuple [(EStr "ipv6"); (EName "IPv6Stats")]); (ETuple [(EStr "icmpv6"); (EName "ICMPv6Stats")]); (ETuple [(EStr "udpv6"); (EName "UDPv6Stats")]); (ETuple [(EStr "tcp"); (EName "TCPStats")])])];
    (* atop_2_8.py:435-457 *) TopClass "SStat" [(EAttr (EName "ctypes") "Structure")] [
      CAssign "_fields_" (EList [(ETuple [(EStr "cpu"); (EName "CPUStat")]); (ETuple [(EStr "mem"); (EName "MemStat")]); (ETuple [(EStr "net"); (EName "NETStat")]); (ETuple [(EStr "intf"); (EName "IntfStat")]); (ETuple [(EStr "memnuma"); (EName "MemNUMA")]); (ETuple [(EStr "cpunuma"); (EName "CPUNUMA")]); (ETuple [(EStr "dsk"); (EName "DSKStat")]); (ETuple [(EStr "nfs"); (EName "NFSStat")]); (ETuple [(EStr "cfs"); (EName "ContStat")]); (ETuple [(EStr "psi"); (EName "Pressure")]); (ETuple [(EStr "gpu"); (EName "GPUStat")]); (ETuple [(EStr "ifb"); (EName "IFBStat")]); (ETuple [(EStr "llc"); (EName "LLCStat")]); (ETuple [(EStr "www"); (EName "WWWStat")])])];
    (* atop_2_8.py:460-496 *) TopClass "GEN" [(EAttr (EName "ctypes") "Structure")] [
      CAssign "_fields_" (EList [(ETuple [(EStr "tgid"); (EAttr (EName "ctypes") "c_int")]); (ETuple [(EStr "pid"); (EAttr (EName "ctypes") "c_int")]); (ETuple [(EStr "ppid"); (EAttr (EName "ctypes") "c_int")]); (ETuple [(EStr "ruid"); (EAttr (EName "ctypes") "c_int")]); (ETuple [(EStr "euid"); (EAttr (EName "ctypes") "c_int")]); (ETuple [(EStr "suid"); (EAttr (EName "ctypes") "c_int")]); (ETuple [(EStr "fsuid"); (EAttr (EName "ctypes") "c_int")]); (ETuple [(EStr "rgid"); (EAttr (EName "ctypes") "c_int")]); (ETuple [(EStr "egid"); (EAttr (EName "ctypes") "c_int")]); (ETuple [(EStr "sgid"); (EAttr (EName "ctypes") "c_int")]); (ETuple [(EStr "fsgid"); (EAttr (EName "ctypes") "c_int")]); (ETuple [(EStr "nthr"); (EAttr (EName "ctypes") "c_int")]); (ETuple [(EStr "name"); (EBin OpMul (EAttr (EName "ctypes") "c_char") (EBin OpAdd (EName "PNAMLEN") (EInt 1)))]); (ETuple [(EStr "isproc"); (EAttr (EName "ctypes") "c_char")]); (ETuple [(EStr "state"); (EAttr (EName "ctypes") "c_char")]); (ETuple [(EStr "excode"); (EAttr (EName "ctypes") "c_int")]); (ETuple [(EStr "btime"); (EName "time_t")]); (ETuple [(EStr "elaps"); (EName "time_t")]); (ETuple [(EStr "cmdline"); (EBin OpMul (EAttr (EName "ctypes") "c_char") (EBin OpAdd (EName "CMDLEN") (EInt 1)))]); (ETuple [(EStr "nthrslpi"); (EAttr (EName "ctypes") "c_int")]); (ETuple [(EStr "nthrslpu"); (EAttr (EName "ctypes") "c_int")]); (ETuple [(EStr "nthrrun"); (EAttr (EName "ctypes") "c_int")]); (ETuple [(EStr "ctid"); (EAttr (EName "ctypes") "c_int")]); (ETuple [(EStr "vpid"); (EAttr (EName "ctypes") "c_int")]); (ETuple [(EStr "wasinactive"); (EAttr (EName "ctypes") "c_int")]); (ETuple [(EStr "container"); (EBin OpMul (EAttr (EName "ctypes") "c_char") (EInt 16))]); (ETuple [(EStr "cgpath"); (EBin OpMul (EAttr (EName "ctypes") "c_char") (EName "CGRLEN"))])])];
    (* atop_2_8.py:499-524 *) TopClass "CPU" [(EAttr (EName "ctypes") "Structure")] [
      CAssign "_fields_" (EList [(ETuple [(EStr "utime"); (EName "count_t")]); (ETuple [(EStr "stime"); (EName "count_t")]); (ETuple [(EStr "nice"); (EAttr (EName "ctypes") "c_int")]); (ETuple [(EStr "prio"); (EAttr (EName "ctypes") "c_int")]); (ETuple [(EStr "rtprio"); (EAttr (EName "ctypes") "c_int")]); (ETuple [(EStr "policy"); (EAttr (EName "ctypes") "c_int")]); (ETuple [(EStr "curcpu"); (EAttr (EName "ctypes") "c_int")]); (ETuple [(EStr "sleepavg"); (EAttr (EName "ctypes") "c_int")]); (ETuple [(EStr "cgcpuweight"); (EAttr (EName "ctypes") "c_int")]); (ETuple [(EStr "cgcpumax"); (EAttr (EName "ctypes") "c_int")]); (ETuple [(EStr "cgcpumaxr"); (EAttr (EName "ctypes") "c_int")]); (ETuple [(EStr "ifuture"); (EBin OpMul (EAttr (EName "ctypes") "c_int") (EInt 3))]); (ETuple [(EStr "wchan"); (EBin OpMul (EAttr (EName "ctypes") "c_char") (EInt 16))]); (ETuple [(EStr "rundelay"); (EName "count_t")]); (ETuple [(EStr "blkdelay"); (EName "count_t")]); (ETuple [(EStr "cfuture"); (EBin OpMul (EName "count_t") (EInt 3))])])];
    (* atop_2_8.py:527-527 *) TopAssign "DSK" (EAttr (EName "atop_1_26") "DSK");
    (* atop_2_8.py:530-557 *) TopClass "MEM" [(EAttr (EName "ctypes") "Structure")] [
      CAssign "_fields_" (EList [(ETuple [(EStr "minflt"); (EName "count_t")]); (ETuple [(EStr "majflt"); (EName "count_t")]); (ETuple [(EStr "vexec"); (EName "count_t")]); (ETuple [(EStr "vmem"); (EName "count_t")]); (ETuple [(EStr "rmem"); (EName "count_t")]); (ETuple [(EStr "pmem"); (EName "count_t")]); (ETuple [(EStr "vgrow"); (EName "count_t")]); (ETuple [(EStr "rgrow"); (EName "count_t")]); (ETuple [(EStr "vdata"); (EName "count_t")]); (ETuple [(EStr "vstack"); (EName "count_t")]); (ETuple [(EStr "vlibs"); (EName "count_t")]); (ETuple [(EStr "vswap"); (EName "count_t")]); (ETuple [(EStr "vlock"); (EName "count_t")]); (ETuple [(EStr "cgmemmax"); (EName "count_t")]); (ETuple [(EStr "cgmemmaxr"); (EName "count_t")]); (ETuple [(EStr "cgswpmax"); (EName "count_t")]); (ETuple [(EStr "cgswpmaxr"); (EName "count_t")]); (ETuple [(EStr "cfuture"); (EBin OpMul (EName "count_t") (EInt 3))])])];
    (* atop_2_8.py:560-560 *) TopAssign "NET" (EAttr (EName "atop_2_3") "NET");
    (* atop_2_8.py:563-563 *) TopAssign "GPU" (EAttr (EName "atop_2_4") "GPU");
    (* atop_2_8.py:566-580 *) TopClass "TStat" [(EAttr (EName "ctypes") "Structure")] [
      CAssign "_fields_" (EList [(ETuple [(EStr "gen"); (EName "GEN")]); (ETuple [(EStr "cpu"); (EName "CPU")]); (ETuple [(EStr "dsk"); (EName "DSK")]); (ETuple [(EStr "mem"); (EName "MEM")]); (ETuple [(EStr "net"); (EName "NET")]); (ETuple [(EStr "gpu"); (EName "GPU")])])];
    (* atop_2_8.py:583-616 *) TopClass "Header" [(EAttr (EName "ctypes") "Structure"); (EName "HeaderMixin")] [
      CAssign "_fields_" (EList [(ETuple [(EStr "magic"); (EAttr (EName "ctypes") "c_uint")]); (ETuple [(EStr "aversion"); (EAttr (EName "ctypes") "c_ushort")]); (ETuple [(EStr "future1"); (EAttr (EName "ctypes") "c_ushort")]); (ETuple [(EStr "future2"); (EAttr (EName "ctypes") "c_ushort")]); (ETuple [(EStr "rawheadlen"); (EAttr (EName "ctypes") "c_ushort")]); (ETuple [(EStr "rawreclen"); (EAttr (EName "ctypes") "c_ushort")]); (ETuple [(EStr "hertz"); (EAttr (EName "ctypes") "c_ushort")]); (ETuple [(EStr "pidwidth"); (EAttr (EName "ctypes") "c_ushort")]); (ETuple [(EStr "sfuture"); (EBin OpMul (EAttr (EName "ctypes") "c_ushort") (EInt 5))]); (ETuple [(EStr "sstatlen"); (EAttr (EName "ctypes") "c_uint")]); (ETuple [(EStr "tstatlen"); (EAttr (EName "ctypes") "c_uint")]); (ETuple [(EStr "utsname"); (EName "UTSName")]); (ETuple [(EStr "cfuture"); (EBin OpMul (EAttr (EName "ctypes") "c_char") (EInt 8))]); (ETuple [(EStr "pagesize"); (EAttr (EName "ctypes") "c_uint")]); (ETuple [(EStr "supportflags"); (EAttr (EName "ctypes") "c_int")]); (ETuple [(EStr "osrel"); (EAttr (EName "ctypes") "c_int")]); (ETuple [(EStr "osvers"); (EAttr (EName "ctypes") "c_int")]); (ETuple [(EStr "ossub"); (EAttr (EName "ctypes") "c_int")]); (ETuple [(EStr "ifuture"); (EBin OpMul (EAttr (EName "ctypes") "c_int") (EInt 6))])]);
      CAssign "supported_version" (EStr "2.8");
      CAssign "Record" (EName "Record");
      CAssign "SStat" (EName "SStat");
      CAssign "TStat" (EName "TStat");
      CAssign "CStat" ENone;
      CAssign "CGChainer" ENone]].

(** atoparser/structs/atop_2_9.py *)
Definition text_atop_2_9 : list top :=
  [
    (* atop_2_9.py:16-16 *) TopImport "ctypes" "ctypes" None;
    (* atop_2_9.py:18-18 *) TopImport "atop_1_26" "atoparser.structs" (Some "atop_1_26");
    (* atop_2_9.py:19-19 *) TopImport "atop_2_3" "atoparser.structs" (Some "atop_2_3");
    (* atop_2_9.py:20-20 *) TopImport "atop_2_4" "atoparser.structs" (Some "atop_2_4");
    (* atop_2_9.py:21-21 *) TopImport "atop_2_7" "atoparser.structs" (Some "atop_2_7");
    (* atop_2_9.py:22-22 *) TopImport "atop_2_8" "atoparser.structs" (Some "atop_2_8");
    (* atop_2_9.py:23-23 *) TopImport "count_t" "atoparser.structs.shared" (Some "count_t");
    (* atop_2_9.py:30-30 *) TopAssign "ACCTACTIVE" (EInt 1);
    (* atop_2_9.py:31-31 *) TopAssign "IOSTAT" (EInt 4);
    (* atop_2_9.py:32-32 *) TopAssign "NETATOP" (EInt 16);
    (* atop_2_9.py:33-33 *) TopAssign "NETATOPD" (EInt 32);
    (* atop_2_9.py:34-34 *) TopAssign "DOCKSTAT" (EInt 64);
    (* atop_2_9.py:35-35 *) TopAssign "GPUSTAT" (EInt 128);
    (* atop_2_9.py:36-36 *) TopAssign "CGROUPV2" (EInt 256);
    (* atop_2_9.py:39-39 *) TopAssign "PNAMLEN" (EInt 15);
    (* atop_2_9.py:40-40 *) TopAssign "CMDLEN" (EInt 255);
    (* atop_2_9.py:41-41 *) TopAssign "CGRLEN" (EInt 64);
    (* atop_2_9.py:44-44 *) TopAssign "MAXCPU" (EInt 2048);
    (* atop_2_9.py:45-45 *) TopAssign "MAXDSK" (EInt 1024);
    (* atop_2_9.py:46-46 *) TopAssign "MAXNUMA" (EInt 1024);
    (* atop_2_9.py:47-47 *) TopAssign "MAXLVM" (EInt 2048);
    (* atop_2_9.py:48-48 *) TopAssign "MAXMDD" (EInt 256);
    (* atop_2_9.py:49-49 *) TopAssign "MAXINTF" (EInt 128);
    (* atop_2_9.py:50-50 *) TopAssign "MAXCONTAINER" (EInt 128);
    (* atop_2_9.py:51-51 *) TopAssign "MAXNFSMOUNT" (EInt 64);
    (* atop_2_9.py:52-52 *) TopAssign "MAXIBPORT" (EInt 32);
    (* atop_2_9.py:53-53 *) TopAssign "MAXGPU" (EInt 32);
    (* atop_2_9.py:54-54 *) TopAssign "MAXGPUBUS" (EInt 12);
    (* atop_2_9.py:55-55 *) TopAssign "MAXGPUTYPE" (EInt 12);
    (* atop_2_9.py:56-56 *) TopAssign "MAXLLC" (EInt 256);
    (* atop_2_9.py:57-57 *) TopAssign "MAXDKNAM" (EInt 32);
    (* atop_2_9.py:58-58 *) TopAssign "MAXIBNAME" (EInt 12);
    (* atop_2_9.py:61-61 *) TopAssign "Record" (EAttr (EName "atop_2_8") "Record");
    (* atop_2_9.py:64-64 *) TopAssign "MemStat" (EAttr (EName "atop_2_8") "MemStat");
    (* atop_2_9.py:67-67 *) TopAssign "MemPerNUMA" (EAttr (EName "atop_2_8") "MemPerNUMA");
    (* atop_2_9.py:70-70 *) TopAssign "MemNUMA" (EAttr (EName "atop_2_8") "MemNUMA");
    (* atop_2_9.py:73-73 *) TopAssign "CPUPerNUMA" (EAttr (EName "atop_2_8") "CPUPerNUMA");
    (* atop_2_9.py:76-76 *) TopAssign "CPUNUMA" (EAttr (EName "atop_2_8") "CPUNUMA");
    (* atop_2_9.py:79-79 *) TopAssign "FreqCnt" (EAttr (EName "atop_1_26") "FreqCnt");
    (* atop_2_9.py:82-82 *) TopAssign "PerCPU" (EAttr (EName "atop_2_7") "PerCPU");
    (* atop_2_9.py:85-85 *) TopAssign "CPUStat" (EAttr (EName "atop_2_7") "CPUStat");
    (* atop_2_9.py:88-88 *) TopAssign "PerDSK" (EAttr (EName "atop_2_8") "PerDSK");
    (* atop_2_9.py:91-91 *) TopAssign "DSKStat" (EAttr (EName "atop_2_8") "DSKStat");
    (* atop_2_9.py:94-94 *) TopAssign "PerIntf" (EAttr (EName "atop_2_3") "PerIntf");
    (* atop_2_9.py:97-97 *) TopAssign "IntfStat" (EAttr (EName "atop_2_3") "IntfStat");
    (* atop_2_9.py:100-100 *) TopAssign "PerNFSMount" (EAttr (EName "atop_2_3") "PerNFSMount");
    (* atop_2_9.py:103-103 *) TopAssign "Server" (EAttr (EName "atop_2_3") "Server");
    (* atop_2_9.py:106-106 *) TopAssign "Client" (EAttr (EName "atop_2_3") "Client");
    (* atop_2_9.py:109-109 *) TopAssign "NFSMounts" (EAttr (EName "atop_2_3") "NFSMounts");
    (* atop_2_9.py:112-112 *) TopAssign "NFSStat" (EAttr (EName "atop_2_3") "NFSStat");
    (* atop_2_9.py:115-115 *) TopAssign "PSI" (EAttr (EName "atop_2_4") "PSI");
    (* atop_2_9.py:118-118 *) TopAssign "Pressure" (EAttr (EName "atop_2_4") "Pressure");
    (* atop_2_9.py:121-121 *) TopAssign "PerContainer" (EAttr (EName "atop_2_3") "PerContainer");
    (* atop_2_9.py:124-124 *) TopAssign "ContStat" (EAttr (EName "atop_2_3") "ContStat");
    (* atop_2_9.py:127-127 *) TopAssign "WWWStat" (EAttr (EName "atop_1_26") "WWWStat");
    (* atop_2_9.py:130-130 *) TopAssign "PerGPU" (EAttr (EName "atop_2_4") "PerGPU");
    (* atop_2_9.py:133-133 *) TopAssign "GPUStat" (EAttr (EName "atop_2_4") "GPUStat");
    (* atop_2_9.py:136-136 *) TopAssign "PerIFB" (EAttr (EName "atop_2_4") "PerIFB");
    (* atop_2_9.py:139-139 *) TopAssign "IFBStat" (EAttr (EName "atop_2_4") "IFBStat");
    (* atop_2_9.py:142-142 *) TopAssign "PerLLC" (EAttr (EName "atop_2_8") "PerLLC");
    (* atop_2_9.py:145-145 *) TopAssign "LLCStat" (EAttr (EName "atop_2_8") "LLCStat");
    (* atop_2_9.py:148-148 *) TopAssign "IPv4Stats" (EAttr (EName "atop_1_26") "IPv4Stats");
    (* atop_2_9.py:151-151 *) TopAssign "ICMPv4Stats" (EAttr (EName "atop_2_8") "ICMPv4Stats");
    (* atop_2_9.py:154-154 *) TopAssign "UDPv4Stats" (EAttr (EName "atop_1_26") "UDPv4Stats");
    (* atop_2_9.py:157-157 *) TopAssign "TCPStats" (EAttr (EName "atop_1_26") "TCPStats");
    (* atop_2_9.py:160-160 *) TopAssign "IPv6Stats" (EAttr (EName "atop_1_26") "IPv6Stats");
    (* atop_2_9.py:163-163 *) TopAssign "ICMPv6Stats" (EAttr (EName "atop_1_26") "ICMPv6Stats");
    (* atop_2_9.py:166-166 *) TopAssign "UDPv6Stats" (EAttr (EName "atop_1_26") "UDPv6Stats");
    (* atop_2_9.py:169-169 *) TopAssign "NETStat" (EAttr (EName "atop_1_26") "NETStat");
    (* atop_2_9.py:172-172 *) TopAssign "SStat" (EAttr (EName "atop_2_8") "SStat");
    (* atop_2_9.py:175-175 *) TopAssign "GEN" (EAttr (EName "atop_2_8") "GEN");
    (* atop_2_9.py:178-205 *) TopClass "CPU" [(EAttr (EName "ctypes") "Structure")] [
      CAssign "_fields_" (EList [(ETuple [(EStr "utime"); (EName "count_t")]); (ETuple [(EStr "stime"); (EName "count_t")]); (ETuple [(EStr "nice"); (EAttr (EName "ctypes") "c_int")]); (ETuple [(EStr "prio"); (EAttr (EName "ctypes") "c_int")]); (ETuple [(EStr "rtprio"); (EAttr (EName "ctypes") "c_int")]); (ETuple [(EStr "policy"); (EAttr (EName "ctypes") "c_int")]); (ETuple [(EStr "curcpu"); (EAttr (EName "ctypes") "c_int")]); (ETuple [(EStr "sleepavg"); (EAttr (EName "ctypes") "c_int")]); (ETuple [(EStr "cgcpuweight"); (EAttr (EName "ctypes") "c_int")]); (ETuple [(EStr "cgcpumax"); (EAttr (EName "ctypes") "c_int")]); (ETuple [(EStr "cgcpumaxr"); (EAttr (EName "ctypes") "c_int")]); (ETuple [(EStr "ifuture"); (EBin OpMul (EAttr (EName "ctypes") "c_int") (EInt 3))]); (ETuple [(EStr "wchan"); (EBin OpMul (EAttr (EName "ctypes") "c_char") (EInt 16))]); (ETuple [(EStr "rundelay"); (EName "count_t")]); (ETuple [(EStr "blkdelay"); (EName "count_t")]); (ETuple [(EStr "nvcsw"); (EName "count_t")]); (ETuple [(EStr "nivcsw"); (EName "count_t")]); (ETuple [(EStr "cfuture"); (EBin OpMul (EName "count_t") (EInt 1))])])];
    (* atop_2_9.py:208-208 *) TopAssign "DSK" (EAttr (EName "atop_1_26") "DSK");
    (* atop_2_9.py:211-211 *) TopAssign "MEM" (EAttr (EName "atop_2_8") "MEM");
    (* atop_2_9.py:214-214 *) TopAssign "NET" (EAttr (EName "atop_2_3") "NET");
    (* atop_2_9.py:217-217 *) TopAssign "GPU" (EAttr (EName "atop_2_4") "GPU");
    (* atop_2_9.py:220-234 *) TopClass "TStat" [(EAttr (EName "ctypes") "Structure")] [
      CAssign "_fields_" (EList [(ETuple [(EStr "gen"); (EName "GEN")]); (ETuple [(EStr "cpu"); (EName "CPU")]); (ETuple [(EStr "dsk"); (EName "DSK")]); (ETuple [(EStr "mem"); (EName "MEM")]); (ETuple [(EStr "net"); (EName "NET")]); (ETuple [(EStr "gpu"); (EName "GPU")])])];
    (* atop_2_9.py:237-245 *) TopClass "Header" [(EAttr (EName "atop_2_8") "Header")] [
      CAssign "supported_version" (EStr "2.9");
      CAssign "Record" (EName "Record");
      CAssign "SStat" (EName "SStat");
      CAssign "TStat" (EName "TStat");
      CAssign "CStat" ENone;
      CAssign "CGChainer" ENone]].

(** atoparser/structs/atop_2_10.py *)
Definition text_atop_2_10 : list top :=
  [
    (* atop_2_10.py:16-16 *) TopImport "ctypes" "ctypes" None;
    (* atop_2_10.py:18-18 *) TopImport "atop_1_26" "atoparser.structs" (Some "atop_1_26");
    (* atop_2_10.py:19-19 *) TopImport "atop_2_3" "atoparser.structs" (Some "atop_2_3");
    (* atop_2_10.py:20-20 *) TopImport "atop_2_4" "atoparser.structs" (Some "atop_2_4");
    (* atop_2_10.py:21-21 *) TopImport "atop_2_7" "atoparser.structs" (Some "atop_2_7");
    (* atop_2_10.py:22-22 *) TopImport "atop_2_8" "atoparser.structs" (Some "atop_2_8");
    (* atop_2_10.py:23-23 *) TopImport "count_t" "atoparser.structs.shared" (Some "count_t");
    (* atop_2_10.py:24-24 *) TopImport "time_t" "atoparser.structs.shared" (Some "time_t");
    (* atop_2_10.py:31-31 *) TopAssign "ACCTACTIVE" (EInt 1);
    (* atop_2_10.py:32-32 *) TopAssign "IOSTAT" (EInt 4);
    (* atop_2_10.py:33-33 *) TopAssign "NETATOP" (EInt 16);
    (* atop_2_10.py:34-34 *) TopAssign "NETATOPD" (EInt 32);
    (* atop_2_10.py:35-35 *) TopAssign "CONTAINERSTAT" (EInt 64);
    (* atop_2_10.py:36-36 *) TopAssign "GPUSTAT" (EInt 128);
    (* atop_2_10.py:37-37 *) TopAssign "CGROUPV2" (EInt 256);
    (* atop_2_10.py:38-38 *) TopAssign "NETATOPBPF" (EInt 4096);
    (* atop_2_10.py:41-41 *) TopAssign "PNAMLEN" (EInt 15);
    (* atop_2_10.py:42-42 *) TopAssign "CMDLEN" (EInt 255);
    (* atop_2_10.py:43-43 *) TopAssign "CGRLEN" (EInt 64);
    (* atop_2_10.py:44-44 *) TopAssign "UTSLEN" (EInt 15);
    (* atop_2_10.py:47-47 *) TopAssign "MAXCPU" (EInt 2048);
    (* atop_2_10.py:48-48 *) TopAssign "MAXDSK" (EInt 1024);
    (* atop_2_10.py:49-49 *) TopAssign "MAXNUMA" (EInt 1024);
    (* atop_2_10.py:50-50 *) TopAssign "MAXLVM" (EInt 2048);
    (* atop_2_10.py:51-51 *) TopAssign "MAXMDD" (EInt 256);
    (* atop_2_10.py:52-52 *) TopAssign "MAXINTF" (EInt 128);
    (* atop_2_10.py:53-53 *) TopAssign "MAXCONTAINER" (EInt 128);
    (* atop_2_10.py:54-54 *) TopAssign "MAXNFSMOUNT" (EInt 64);
    (* atop_2_10.py:55-55 *) TopAssign "MAXIBPORT" (EInt 32);
    (* atop_2_10.py:56-56 *) TopAssign "MAXGPU" (EInt 32);
    (* atop_2_10.py:57-57 *) TopAssign "MAXGPUBUS" (EInt 12);
    (* atop_2_10.py:58-58 *) TopAssign "MAXGPUTYPE" (EInt 12);
    (* atop_2_10.py:59-59 *) TopAssign "MAXLLC" (EInt 256);
    (* atop_2_10.py:60-60 *) TopAssign "MAXDKNAM" (EInt 32);
    (* atop_2_10.py:61-61 *) TopAssign "MAXIBNAME" (EInt 12);
    (* atop_2_10.py:64-90 *) TopClass "Record" [(EAttr (EName "ctypes") "Structure")] [
      CAssign "_fields_" (EList [(ETuple [(EStr "curtime"); (EName "time_t")]); (ETuple [(EStr "flags"); (EAttr (EName "ctypes") "c_ushort")]); (ETuple [(EStr "sfuture"); (EBin OpMul (EAttr (EName "ctypes") "c_ushort") (EInt 3))]); (ETuple [(EStr "scomplen"); (EAttr (EName "ctypes") "c_uint")]); (ETuple [(EStr "pcomplen"); (EAttr (EName "ctypes") "c_uint")]); (ETuple [(EStr "interval"); (EAttr (EName "ctypes") "c_uint")]); (ETuple [(EStr "ndeviat"); (EAttr (EName "ctypes") "c_uint")]); (ETuple [(EStr "nactproc"); (EAttr (EName "ctypes") "c_uint")]); (ETuple [(EStr "ntask"); (EAttr (EName "ctypes") "c_uint")]); (ETuple [(EStr "totproc"); (EAttr (EName "ctypes") "c_uint")]); (ETuple [(EStr "totrun"); (EAttr (EName "ctypes") "c_uint")]); (ETuple [(EStr "totslpi"); (EAttr (EName "ctypes") "c_uint")]); (ETuple [(EStr "totslpu"); (EAttr (EName "ctypes") "c_uint")]); (ETuple [(EStr "totzomb"); (EAttr (EName "ctypes") "c_uint")]); (ETuple [(EStr "nexit"); (EAttr (EName "ctypes") "c_uint")]); (ETuple [(EStr "noverflow"); (EAttr (EName "ctypes") "c_uint")]); (ETuple [(EStr "totidle"); (EAttr (EName "ctypes") "c_uint")]); (ETuple [(EStr "ifuture"); (EBin OpMul (EAttr (EName "ctypes") "c_uint") (EInt 5))])])];
    (* atop_2_10.py:93-148 *) TopClass "MemStat" [(EAttr (EName "ctypes") "Structure")] [
      CAssign "_fields_" (EList [(ETuple [(EStr "physmem"); (EName "count_t")]); (ETuple [(EStr "freemem"); (EName "count_t")]); (ETuple [(EStr "buffermem"); (EName "count_t")]); (ETuple [(EStr "slabmem"); (EName "count_t")]); (ETuple [(EStr "cachemem"); (EName "count_t")]); (ETuple [(EStr "cachedrt"); (EName "count_t")]); (ETuple [(EStr "totswap"); (EName "count_t")]); (ETuple [(EStr "freeswap"); (EName "count_t")]); (ETuple [(EStr "pgscans"); (EName "count_t")]); (ETuple [(EStr "pgsteal"); (EName "count_t")]); (ETuple [(EStr "allocstall"); (EName "count_t")]); (ETuple [(EStr "swouts"); (EName "count_t")]); (ETuple [(EStr "swins"); (EName "count_t")]); (ETuple [(EStr "tcpsock"); (EName "count_t")]); (ETuple [(EStr "udpsock"); (EName "count_t")]); (ETuple [(EStr "commitlim"); (EName "count_t")]); (ETuple [(EStr "committed"); (EName "count_t")]); (ETuple [(EStr "shmem"); (EName "count_t")]); (ETuple [(EStr "shmrss"); (EName "count_t")]); (ETuple [(EStr "shmswp"); (EName "count_t")]); (ETuple [(EStr "slabreclaim"); (EName "count_t")]); (ETuple [(EStr "stothugepage"); (EName "count_t")]); (ETuple [(EStr "sfreehugepage"); (EName "count_t")]); (ETuple [(EStr "shugepagesz"); (EName "count_t")]); (ETuple [(EStr "vmwballoon"); (EName "count_t")]); (ETuple [(EStr "zfsarcsize"); (EName "count_t")]); (ETuple [(EStr "swapcached"); (EName "count_t")]); (ETuple [(EStr "ksmsharing"); (EName "count_t")]); (ETuple [(EStr "ksmshared"); (EName "count_t")]); (ETuple [(EStr "zswapped"); (EName "count_t")]); (ETuple [(EStr "zswap"); (EName "count_t")]); (ETuple [(EStr "oomkills"); (EName "count_t")]); (ETuple [(EStr "compactstall"); (EName "count_t")]); (ETuple [(EStr "pgmigrate"); (EName "count_t")]); (ETuple [(EStr "numamigrate"); (EName "count_t")]); (ETuple [(EStr "pgouts"); (EName "count_t")]); (ETuple [(EStr "pgins"); (EName "count_t")]); (ETuple [(EStr "pagetables"); (EName "count_t")]); (ETuple [(EStr "zswouts"); (EName "count_t")]); (ETuple [(EStr "zswins"); (EName "count_t")]); (ETuple [(EStr "ltothugepage"); (EName "count_t")]); (ETuple [(EStr "lfreehugepage"); (EName "count_t")]); (ETuple [(EStr "lhugepagesz"); (EName "count_t")]); (ETuple [(EStr "availablemem"); (EName "count_t")]); (ETuple [(EStr "anonhugepage"); (EName "count_t")]); (ETuple [(EStr "cfuture"); (EBin OpMul (EName "count_t") (EInt 4))])])];
    (* atop_2_10.py:151-173 *) TopClass "MemPerNUMA" [(EAttr (EName "ctypes") "Structure")] [
      CAssign "_fields_" (EList [(ETuple [(EStr "numanr"); (EAttr (EName "ctypes") "c_int")]); (ETuple [(EStr "frag"); (EAttr (EName "ctypes") "c_float")]); (ETuple [(EStr "totmem"); (EName "count_t")]); (ETuple [(EStr "freemem"); (EName "count_t")]); (ETuple [(EStr "filepage"); (EName "count_t")]); (ETuple [(EStr "dirtymem"); (EName "count_t")]); (ETuple [(EStr "slabmem"); (EName "count_t")]); (ETuple [(EStr "slabreclaim"); (EName "count_t")]); (ETuple [(EStr "active"); (EName "count_t")]); (ETuple [(EStr "inactive"); (EName "count_t")]); (ETuple [(EStr "shmem"); (EName "count_t")]); (ETuple [(EStr "tothp"); (EName "count_t")]); (ETuple [(EStr "freehp"); (EName "count_t")])])];
    (* atop_2_10.py:176-188 *) TopClass "MemNUMA" [(EAttr (EName "ctypes") "Structure")] [
      CAssign "_fields_" (EList [(ETuple [(EStr "nrnuma"); (EName "count_t")]); (ETuple [(EStr "numa"); (EBin OpMul (EName "MemPerNUMA") (EName "MAXNUMA"))])]);
      CAssign "fields_limiters" (EDict [((EStr "numa"), (EStr "nrnuma"))])];
    (* atop_2_10.py:191-191 *) TopAssign "CPUPerNUMA" (EAttr (EName "atop_2_8") "CPUPerNUMA");
    (* atop_2_10.py:194-194 *) TopAssign "CPUNUMA" (EAttr (EName "atop_2_8") "CPUNUMA");
    (* atop_2_10.py:197-197 *) TopAssign "FreqCnt" (EAttr (EName "atop_1_26") "FreqCnt");
    (* atop_2_10.py:200-200 *) TopAssign "PerCPU" (EAttr (EName "atop_2_7") "PerCPU");
    (* atop_2_10.py:203-203 *) TopAssign "CPUStat" (EAttr (EName "atop_2_7") "CPUStat");
    (* atop_2_10.py:206-206 *) TopAssign "PerDSK" (EAttr (EName "atop_2_8") "PerDSK");
    (* atop_2_10.py:209-209 *) TopAssign "DSKStat" (EAttr (EName "atop_2_8") "DSKStat");
    (* atop_2_10.py:212-212 *) TopAssign "PerIntf" (EAttr (EName "atop_2_3") "PerIntf");
    (* atop_2_10.py:215-215 *) TopAssign "IntfStat" (EAttr (EName "atop_2_3") "IntfStat");
    (* atop_2_10.py:218-218 *) TopAssign "PerNFSMount" (EAttr (EName "atop_2_3") "PerNFSMount");
    (* atop_2_10.py:221-221 *) TopAssign "Server" (EAttr (EName "atop_2_3") "Server");
    (* atop_2_10.py:224-224 *) TopAssign "Client" (EAttr (EName "atop_2_3") "Client");
    (* atop_2_10.py:227-227 *) TopAssign "NFSMounts" (EAttr (EName "atop_2_3") "NFSMounts");
    (* atop_2_10.py:230-230 *) TopAssign "NFSStat" (EAttr (EName "atop_2_3") "NFSStat");
    (* atop_2_10.py:233-233 *) TopAssign "PSI" (EAttr (EName "atop_2_4") "PSI");
    (* atop_2_10.py:236-236 *) TopAssign "Pressure" (EAttr (EName "atop_2_4") "Pressure");
    (* atop_2_10.py:239-239 *) TopAssign "PerContainer" (EAttr (EName "atop_2_3") "PerContainer");
    (* atop_2_10.py:242-242 *) TopAssign "ContStat" (EAttr (EName "atop_2_3") "ContStat");
    (* atop_2_10.py:245-245 *) TopAssign "WWWStat" (EAttr (EName "atop_1_26") "WWWStat");
    (* atop_2_10.py:248-248 *) TopAssign "PerGPU" (EAttr (EName "atop_2_4") "PerGPU");
    (* atop_2_10.py:251-251 *) TopAssign "GPUStat" (EAttr (EName "atop_2_4") "GPUStat");
    (* atop_2_10.py:254-254 *) TopAssign "PerIFB" (EAttr (EName "atop_2_4") "PerIFB");
    (* atop_2_10.py:257-257 *) TopAssign "IFBStat" (EAttr (EName "atop_2_4") "IFBStat");
    (* atop_2_10.py:260-260 *) TopAssign "PerLLC" (EAttr (EName "atop_2_8") "PerLLC");
    (* atop_2_10.py:263-263 *) TopAssign "LLCStat" (EAttr (EName "atop_2_8") "LLCStat");
    (* atop_2_10.py:266-266 *) TopAssign "IPv4Stats" (EAttr (EName "atop_1_26") "IPv4Stats");
    (* atop_2_10.py:269-269 *) TopAssign "ICMPv4Stats" (EAttr (EName "atop_2_8") "ICMPv4Stats");
    (* atop_2_10.py:272-272 *) TopAssign "UDPv4Stats" (EAttr (EName "atop_1_26") "UDPv4Stats");
    (* atop_2_10.py:275-299 *) TopClass "TCPStats" [(EAttr (EName "ctypes") "Structure")] [
      CAssign "_fields_" (EList [(ETuple [(EStr "RtoAlgorithm"); (EName "count_t")]); (ETuple [(EStr "RtoMin"); (EName "count_t")]); (ETuple [(EStr "RtoMax"); (EName "count_t")]); (ETuple [(EStr "MaxConn"); (EName "count_t")]); (ETuple [(EStr "ActiveOpens"); (EName "count_t")]); (ETuple [(EStr "PassiveOpens"); (EName "count_t")]); (ETuple [(EStr "AttemptFails"); (EName "count_t")]); (ETuple [(EStr "EstabResets"); (EName "count_t")]); (ETuple [(EStr "CurrEstab"); (EName "count_t")]); (ETuple [(EStr "InSegs"); (EName "count_t")]); (ETuple [(EStr "OutSegs"); (EName "count_t")]); (ETuple [(EStr "RetransSegs"); (EName "count_t")]); (ETuple [(EStr "InErrs"); (EName "count_t")]); (ETuple [(EStr "OutRsts"); (EName "count_t")]); (ETuple [(EStr "InCsumErrors"); (EName "count_t")])])];
    (* atop_2_10.py:302-302 *) TopAssign "IPv6Stats" (EAttr (EName "atop_1_26") "IPv6Stats");
    (* atop_2_10.py:305-305 *) TopAssign "ICMPv6Stats" (EAttr (EName "atop_1_26") "ICMPv6Stats");
    (* atop_2_10.py:308-308 *) TopAssign "UDPv6Stats" (EAttr (EName "atop_1_26") "UDPv6Stats");
    (* atop_2_10.py:311-327 *) TopClass "NETStat" [(EAttr (EName "ctypes") "Structure")] [
      CAssign "_fields_" (EList [(ETuple [(EStr "ipv4"); (EName "IPv4Stats")]); (ETuple [(EStr "icmpv4"); (EName "ICMPv4Stats")]); (ETuple [(EStr "udpv4"); (EName "UDPv4Stats")]); (ETuple [(EStr "ipv6"); (EName "IPv6Stats")]); (ETuple [(EStr "icmpv6"); (EName "ICMPv6Stats")]); (ETuple [(EStr "udpv6"); (EName "UDPv6Stats")]); (ETuple [(EStr "tcp"); (EName "TCPStats")])])];
    (* atop_2_10.py:330-352 *) TopClass "SStat" [(EAttr (EName "ctypes") "Structure")] [
      CAssign "_fields_" (EList [(ETuple [(EStr "cpu"); (EName "CPUStat")]); (ETuple [(EStr "mem"); (EName "MemStat")]); (ETuple [(EStr "net"); (EName "NETStat")]); (ETuple [(EStr "intf"); (EName "IntfStat")]); (ETuple [(EStr "memnuma"); (EName "MemNUMA")]); (ETuple [(EStr "cpunuma"); (EName "CPUNUMA")]); (ETuple [(EStr "dsk"); (EName "DSKStat")]); (ETuple [(EStr "nfs"); (EName "NFSStat")]); (ETuple [(EStr "cfs"); (EName "ContStat")]); (ETuple [(EStr "psi"); (EName "Pressure")]); (ETuple [(EStr "gpu"); (EName "GPUStat")]); (ETuple [(EStr "ifb"); (EName "IFBStat")]); (ETuple [(EStr "llc"); (EName "LLCStat")]); (ETuple [(EStr "www"); (EName "WWWStat")])])];
    (* atop_2_10.py:355-392 *) TopClass "GEN" [(EAttr (EName "ctypes") "Structure")] [
      CAssign "_fields_" (EList [(ETuple [(EStr "tgid"); (EAttr (EName "ctypes") "c_int")]); (ETuple [(EStr "pid"); (EAttr (EName "ctypes") "c_int")]); (ETuple [(EStr "ppid"); (EAttr (EName "ctypes") "c_int")]); (ETuple [(EStr "ruid"); (EAttr (EName "ctypes") "c_int")]); (ETuple [(EStr "euid"); (EAttr (EName "ctypes") "c_int")]); (ETuple [(EStr "suid"); (EAttr (EName "ctypes") "c_int")]); (ETuple [(EStr "fsuid"); (EAttr (EName "ctypes") "c_int")]); (ETuple [(EStr "rgid"); (EAttr (EName "ctypes") "c_int")]); (ETuple [(EStr "egid"); (EAttr (EName "ctypes") "c_int")]); (ETuple [(EStr "sgid"); (EAttr (EName "ctypes") "c_int")]); (ETuple [(EStr "fsgid"); (EAttr (EName "ctypes") "c_int")]); (ETuple [(EStr "nthr"); (EAttr (EName "ctypes") "c_int")]); (ETuple [(EStr "name"); (EBin OpMul (EAttr (EName "ctypes") "c_char") (EBin OpAdd (EName "PNAMLEN") (EInt 1)))]); (ETuple [(EStr "isproc"); (EAttr (EName "ctypes") "c_char")]); (ETuple [(EStr "state"); (EAttr (EName "ctypes") "c_char")]); (ETuple [(EStr "excode"); (EAttr (EName "ctypes") "c_int")]); (ETuple [(EStr "btime"); (EName "time_t")]); (ETuple [(EStr "elaps"); (EName "time_t")]); (ETuple [(EStr "cmdline"); (EBin OpMul (EAttr (EName "ctypes") "c_char") (EBin OpAdd (EName "CMDLEN") (EInt 1)))]); (ETuple [(EStr "nthrslpi"); (EAttr (EName "ctypes") "c_int")]); (ETuple [(EStr "nthrslpu"); (EAttr (EName "ctypes") "c_int")]); (ETuple [(EStr "nthrrun"); (EAttr (EName "ctypes") "c_int")]); (ETuple [(EStr "nthridle"); (EAttr (EName "ctypes") "c_int")]); (ETuple [(EStr "ctid"); (EAttr (EName "ctypes") "c_int")]); (ETuple [(EStr "vpid"); (EAttr (EName "ctypes") "c_int")]); (ETuple [(EStr "wasinactive"); (EAttr (EName "ctypes") "c_int")]); (ETuple [(EStr "utsname"); (EBin OpMul (EAttr (EName "ctypes") "c_char") (EBin OpAdd (EName "UTSLEN") (EInt 1)))]); (ETuple [(EStr "cgpath"); (EBin OpMul (EAttr (EName "ctypes") "c_char") (EName "CGRLEN"))])])];
    (* atop_2_10.py:395-422 *) TopClass "CPU" [(EAttr (EName "ctypes") "Structure")] [
      CAssign "_fields_" (EList [(ETuple [(EStr "utime"); (EName "count_t")]); (ETuple [(EStr "stime"); (EName "count_t")]); (ETuple [(EStr "nice"); (EAttr (EName "ctypes") "c_int")]); (ETuple [(EStr "prio"); (EAttr (EName "ctypes") "c_int")]); (ETuple [(EStr "rtprio"); (EAttr (EName "ctypes") "c_int")]); (ETuple [(EStr "policy"); (EAttr (EName "ctypes") "c_int")]); (ETuple [(EStr "curcpu"); (EAttr (EName "ctypes") "c_int")]); (ETuple [(EStr "sleepavg"); (EAttr (EName "ctypes") "c_int")]); (ETuple [(EStr "cgcpuweight"); (EAttr (EName "ctypes") "c_int")]); (ETuple [(EStr "cgcpumax"); (EAttr (EName "ctypes") "c_int")]); (ETuple [(EStr "cgcpumaxr"); (EAttr (EName "ctypes") "c_int")]); (ETuple [(EStr "ifuture"); (EBin OpMul (EAttr (EName "ctypes") "c_int") (EInt 3))]); (ETuple [(EStr "wchan"); (EBin OpMul (EAttr (EName "ctypes") "c_char") (EInt 16))]); (ETuple [(EStr "rundelay"); (EName "count_t")]); (ETuple [(EStr "blkdelay"); (EName "count_t")]); (ETuple [(EStr "nvcsw"); (EName "count_t")]); (ETuple [(EStr "nivcsw"); (EName "count_t")]); (ETuple [(EStr "cfuture"); (EBin OpMul (EName "count_t") (EInt 3))])])];
    (* atop_2_10.py:425-425 *) TopAssign "DSK" (EAttr (EName "atop_1_26") "DSK");
    (* atop_2_10.py:428-428 *) TopAssign "MEM" (EAttr (EName "atop_2_8") "MEM");
    (* atop_2_10.py:431-431 *) TopAssign "NET" (EAttr (EName "atop_2_3") "NET");
    (* atop_2_10.py:434-434 *) TopAssign "GPU" (EAttr (EName "atop_2_4") "GPU");
    (* atop_2_10.py:437-451 *) TopClass "TStat" [(EAttr (EName "ctypes") "Structure")] [
      CAssign "_fields_" (EList [(ETuple [(EStr "gen"); (EName "GEN")]); (ETuple [(EStr "cpu"); (EName "CPU")]); (ETuple [(EStr "dsk"); (EName "DSK")]); (ETuple [(EStr "mem"); (EName "MEM")]); (ETuple [(EStr "net"); (EName "NET")]); (ETuple [(EStr "gpu"); (EName "GPU")])])];
    (* atop_2_10.py:454-462 *) TopClass "Header" [(EAttr (EName "atop_2_8") "Header")] [
      CAssign "supported_version" (EStr "2.10");
      CAssign "Record" (EName "Record");
      CAssign "SStat" (EName "SStat");
      CAssign "TStat" (EName "TStat");
      CAssign "CStat" ENone;
      CAssign "CGChainer" ENone]].

(** atoparser/structs/atop_2_11.py *)
Definition text_atop_2_11 : list top :=
  [
    (* atop_2_11.py:16-16 *) TopImport "ctypes" "ctypes" None;
    (* atop_2_11.py:18-18 *) TopImport "atop_1_26" "atoparser.structs" (Some "atop_1_26");
    (* atop_2_11.py:19-19 *) TopImport "atop_2_3" "atoparser.structs" (Some "atop_2_3");
    (* atop_2_11.py:20-20 *) TopImport "atop_2_4" "atoparser.structs" (Some "atop_2_4");
    (* atop_2_11.py:21-21 *) TopImport "atop_2_7" "atoparser.structs" (Some "atop_2_7");
    (* atop_2_11.py:22-22 *) TopImport "atop_2_8" "atoparser.structs" (Some "atop_2_8");
    (* atop_2_11.py:23-23 *) TopImport "atop_2_10" "atoparser.structs" (Some "atop_2_10");
    (* atop_2_11.py:24-24 *) TopImport "HeaderMixin" "atoparser.structs.shared" (Some "HeaderMixin");
    (* atop_2_11.py:25-25 *) TopImport "UTSName" "atoparser.structs.shared" (Some "UTSName");
    (* atop_2_11.py:26-26 *) TopImport "count_t" "atoparser.structs.shared" (Some "count_t");
    (* atop_2_11.py:27-27 *) TopImport "pid_t" "atoparser.structs.shared" (Some "pid_t");
    (* atop_2_11.py:28-28 *) TopImport "time_t" "atoparser.structs.shared" (Some "time_t");
    (* atop_2_11.py:35-35 *) TopAssign "ACCTACTIVE" (EInt 1);
    (* atop_2_11.py:36-36 *) TopAssign "IOSTAT" (EInt 4);
    (* atop_2_11.py:37-37 *) TopAssign "NETATOP" (EInt 16);
    (* atop_2_11.py:38-38 *) TopAssign "NETATOPD" (EInt 32);
    (* atop_2_11.py:39-39 *) TopAssign "CONTAINERSTAT" (EInt 64);
    (* atop_2_11.py:40-40 *) TopAssign "GPUSTAT" (EInt 128);
    (* atop_2_11.py:41-41 *) TopAssign "CGROUPV2" (EInt 256);
    (* atop_2_11.py:42-42 *) TopAssign "NETATOPBPF" (EInt 4096);
    (* atop_2_11.py:45-45 *) TopAssign "PNAMLEN" (EInt 15);
    (* atop_2_11.py:46-46 *) TopAssign "CMDLEN" (EInt 255);
    (* atop_2_11.py:47-47 *) TopAssign "CGRLEN" (EInt 64);
    (* atop_2_11.py:48-48 *) TopAssign "UTSLEN" (EInt 15);
    (* atop_2_11.py:51-51 *) TopAssign "MAXCPU" (EInt 2048);
    (* atop_2_11.py:52-52 *) TopAssign "MAXDSK" (EInt 1024);
    (* atop_2_11.py:53-53 *) TopAssign "MAXNUMA" (EInt 1024);
    (* atop_2_11.py:54-54 *) TopAssign "MAXLVM" (EInt 2048);
    (* atop_2_11.py:55-55 *) TopAssign "MAXMDD" (EInt 256);
    (* atop_2_11.py:56-56 *) TopAssign "MAXINTF" (EInt 128);
    (* atop_2_11.py:57-57 *) TopAssign "MAXCONTAINER" (EInt 128);
    (* atop_2_11.py:58-58 *) TopAssign "MAXNFSMOUNT" (EInt 64);
    (* atop_2_11.py:59-59 *) TopAssign "MAXIBPORT" (EInt 32);
    (* atop_2_11.py:60-60 *) TopAssign "MAXGPU" (EInt 32);
    (* atop_2_11.py:61-61 *) TopAssign "MAXGPUBUS" (EInt 12);
    (* atop_2_11.py:62-62 *) TopAssign "MAXGPUTYPE" (EInt 12);
    (* atop_2_11.py:63-63 *) TopAssign "MAXLLC" (EInt 256);
    (* atop_2_11.py:64-64 *) TopAssign "MAXDKNAM" (EInt 32);
    (* atop_2_11.py:65-65 *) TopAssign "MAXIBNAME" (EInt 12);
    (* atop_2_11.py:68-99 *) TopClass "Record" [(EAttr (EName "ctypes") "Structure")] [
      CAssign "_fields_" (EList [(ETuple [(EStr "curtime"); (EName "time_t")]); (ETuple [(EStr "flags"); (EAttr (EName "ctypes") "c_ushort")]); (ETuple [(EStr "ncgroups"); (EAttr (EName "ctypes") "c_ushort")]); (ETuple [(EStr "sfuture"); (EBin OpMul (EAttr (EName "ctypes") "c_ushort") (EInt 2))]); (ETuple [(EStr "scomplen"); (EAttr (EName "ctypes") "c_uint")]); (ETuple [(EStr "pcomplen"); (EAttr (EName "ctypes") "c_uint")]); (ETuple [(EStr "interval"); (EAttr (EName "ctypes") "c_uint")]); (ETuple [(EStr "ndeviat"); (EAttr (EName "ctypes") "c_uint")]); (ETuple [(EStr "nactproc"); (EAttr (EName "ctypes") "c_uint")]); (ETuple [(EStr "ntask"); (EAttr (EName "ctypes") "c_uint")]); (ETuple [(EStr "totproc"); (EAttr (EName "ctypes") "c_uint")]); (ETuple [(EStr "totrun"); (EAttr (EName "ctypes") "c_uint")]); (ETuple [(EStr "totslpi"); (EAttr (EName "ctypes") "c_uint")]); (ETuple [(EStr "totslpu"); (EAttr (EName "ctypes") "c_uint")]); (ETuple [(EStr "totzomb"); (EAttr (EName "ctypes") "c_uint")]); (ETuple [(EStr "nexit"); (EAttr (EName "ctypes") "c_uint")]); (ETuple [(EStr "noverflow"); (EAttr (EName "ctypes") "c_uint")]); (ETuple [(EStr "totidle"); (EAttr (EName "ctypes") "c_uint")]); (ETuple [(EStr "ccomplen"); (EAttr (EName "ctypes") "c_uint")]); (ETuple [(EStr "coriglen"); (EAttr (EName "ctypes") "c_uint")]); (ETuple [(EStr "ncgpids"); (EAttr (EName "ctypes") "c_uint")]); (ETuple [(EStr "icomplen"); (EAttr (EName "ctypes") "c_uint")]); (ETuple [(EStr "ifuture"); (EAttr (EName "ctypes") "c_uint")])])];
    (* atop_2_11.py:102-157 *) TopClass "MemStat" [(EAttr (EName "ctypes") "Structure")] [
      CAssign "_fields_" (EList [(ETuple [(EStr "physmem"); (EName "count_t")]); (ETuple [(EStr "freemem"); (EName "count_t")]); (ETuple [(EStr "buffermem"); (EName "count_t")]); (ETuple [(EStr "slabmem"); (EName "count_t")]); (ETuple [(EStr "cachemem"); (EName "count_t")]); (ETuple [(EStr "cachedrt"); (EName "count_t")]); (ETuple [(EStr "totswap"); (EName "count_t")]); (ETuple [(EStr "freeswap"); (EName "count_t")]); (ETuple [(EStr "pgscans"); (EName "count_t")]); (ETuple [(EStr "pgsteal"); (EName "count_t")]); (ETuple [(EStr "allocstall"); (EName "count_t")]); (ETuple [(EStr "swouts"); (EName "count_t")]); (ETuple [(EStr "swins"); (EName "count_t")]); (ETuple [(EStr "tcpsock"); (EName "count_t")]); (ETuple [(EStr "udpsock"); (EName "count_t")]); (ETuple [(EStr "commitlim"); (EName "count_t")]); (ETuple [(EStr "committed"); (EName "count_t")]); (ETuple [(EStr "shmem"); (EName "count_t")]); (ETuple [(EStr "shmrss"); (EName "count_t")]); (ETuple [(EStr "shmswp"); (EName "count_t")]); (ETuple [(EStr "slabreclaim"); (EName "count_t")]); (ETuple [(EStr "stothugepage"); (EName "count_t")]); (ETuple [(EStr "sfreehugepage"); (EName "count_t")]); (ETuple [(EStr "shugepagesz"); (EName "count_t")]); (ETuple [(EStr "vmwballoon"); (EName "count_t")]); (ETuple [(EStr "zfsarcsize"); (EName "count_t")]); (ETuple [(EStr "swapcached"); (EName "count_t")]); (ETuple [(EStr "ksmsharing"); (EName "count_t")]); (ETuple [(EStr "ksmshared"); (EName "count_t")]); (ETuple [(EStr "zswapped"); (EName "count_t")]); (ETuple [(EStr "zswap"); (EName "count_t")]); (ETuple [(EStr "oomkills"); (EName "count_t")]); (ETuple [(EStr "compactstall"); (EName "count_t")]); (ETuple [(EStr "pgmigrate"); (EName "count_t")]); (ETuple [(EStr "numamigrate"); (EName "count_t")]); (ETuple [(EStr "pgouts"); (EName "count_t")]); (ETuple [(EStr "pgins"); (EName "count_t")]); (ETuple [(EStr "pagetables"); (EName "count_t")]); (ETuple [(EStr "zswouts"); (EName "count_t")]); (ETuple [(EStr "zswins"); (EName "count_t")]); (ETuple [(EStr "ltothugepage"); (EName "count_t")]); (ETuple [(EStr "lfreehugepage"); (EName "count_t")]); (ETuple [(EStr "lhugepagesz"); (EName "count_t")]); (ETuple [(EStr "availablemem"); (EName "count_t")]); (ETuple [(EStr "anonhugepage"); (EName "count_t")]); (ETuple [(EStr "cfuture"); (EBin OpMul (EName "count_t") (EInt 5))])])];
    (* atop_2_11.py:160-183 *) TopClass "MemPerNUMA" [(EAttr (EName "ctypes") "Structure")] [
      CAssign "_fields_" (EList [(ETuple [(EStr "numanr"); (EAttr (EName "ctypes") "c_int")]); (ETuple [(EStr "frag"); (EAttr (EName "ctypes") "c_float")]); (ETuple [(EStr "totmem"); (EName "count_t")]); (ETuple [(EStr "freemem"); (EName "count_t")]); (ETuple [(EStr "filepage"); (EName "count_t")]); (ETuple [(EStr "dirtymem"); (EName "count_t")]); (ETuple [(EStr "slabmem"); (EName "count_t")]); (ETuple [(EStr "slabreclaim"); (EName "count_t")]); (ETuple [(EStr "active"); (EName "count_t")]); (ETuple [(EStr "inactive"); (EName "count_t")]); (ETuple [(EStr "shmem"); (EName "count_t")]); (ETuple [(EStr "tothp"); (EName "count_t")]); (ETuple [(EStr "freehp"); (EName "count_t")]); (ETuple [(EStr "cfuture"); (EBin OpMul (EName "count_t") (EInt 2))])])];
    (* atop_2_11.py:186-198 *) TopClass "MemNUMA" [(EAttr (EName "ctypes") "Structure")] [
      CAssign "_fields_" (EList [(ETuple [(EStr "nrnuma"); (EName "count_t")]); (ETuple [(EStr "numa"); (EBin OpMul (EName "MemPerNUMA") (EName "MAXNUMA"))])]);
      CAssign "fields_limiters" (EDict [((EStr "numa"), (EStr "nrnuma"))])];
    (* atop_2_11.py:201-222 *) TopClass "CPUPerNUMA" [(EAttr (EName "ctypes") "Structure")] [
      CAssign "_fields_" (EList [(ETuple [(EStr "numanr"); (EAttr (EName "ctypes") "c_int")]); (ETuple [(EStr "nrcpu"); (EName "count_t")]); (ETuple [(EStr "stime"); (EName "count_t")]); (ETuple [(EStr "utime"); (EName "count_t")]); (ETuple [(EStr "ntime"); (EName "count_t")]); (ETuple [(EStr "itime"); (EName "count_t")]); (ETuple [(EStr "wtime"); (EName "count_t")]); (ETuple [(EStr "Itime"); (EName "count_t")]); (ETuple [(EStr "Stime"); (EName "count_t")]); (ETuple [(EStr "steal"); (EName "count_t")]); (ETuple [(EStr "guest"); (EName "count_t")]); (ETuple [(EStr "cfuture"); (EBin OpMul (EName "count_t") (EInt 2))])])];
    (* atop_2_11.py:225-237 *) TopClass "CPUNUMA" [(EAttr (EName "ctypes") "Structure")] [
      CAssign "_fields_" (EList [(ETuple [(EStr "nrnuma"); (EName "count_t")]); (ETuple [(EStr "numa"); (EBin OpMul (EName "CPUPerNUMA") (EName "MAXNUMA"))])]);
      CAssign "fields_limiters" (EDict [((EStr "numa"), (EStr "nrnuma"))])];
    (* atop_2_11.py:240-240 *) TopAssign "FreqCnt" (EAttr (EName "atop_1_26") "FreqCnt");
    (* atop_2_11.py:243-243 *) TopAssign "PerCPU" (EAttr (EName "atop_2_7") "PerCPU");
    (* atop_2_11.py:246-246 *) TopAssign "CPUStat" (EAttr (EName "atop_2_7") "CPUStat");
    (* atop_2_11.py:249-249 *) TopAssign "PerDSK" (EAttr (EName "atop_2_8") "PerDSK");
    (* atop_2_11.py:252-252 *) TopAssign "DSKStat" (EAttr (EName "atop_2_8") "DSKStat");
    (* atop_2_11.py:255-255 *) TopAssign "PerIntf" (EAttr (EName "atop_2_3") "PerIntf");
    (* atop_2_11.py:258-258 *) TopAssign "IntfStat" (EAttr (EName "atop_2_3") "IntfStat");
    (* atop_2_11.py:261-261 *) TopAssign "PerNFSMount" (EAttr (EName "atop_2_3") "PerNFSMount");
    (* atop_2_11.py:264-264 *) TopAssign "Server" (EAttr (EName "atop_2_3") "Server");
    (* atop_2_11.py:267-267 *) TopAssign "Client" (EAttr (EName "atop_2_3") "Client");
    (* atop_2_11.py:270-270 *) TopAssign "NFSMounts" (EAttr (EName "atop_2_3") "NFSMounts");
    (* atop_2_11.py:273-273 *) TopAssign "NFSStat" (EAttr (EName "atop_2_3") "NFSStat");
    (* atop_2_11.py:276-276 *) TopAssign "PSI" (EAttr (EName "atop_2_4") "PSI");
    (* atop_2_11.py:279-279 *) TopAssign "Pressure" (EAttr (EName "atop_2_4") "Pressure");
    (* atop_2_11.py:282-282 *) TopAssign "PerContainer" (EAttr (EName "atop_2_3") "PerContainer");
    (* atop_2_11.py:285-285 *) TopAssign "ContStat" (EAttr (EName "atop_2_3") "ContStat");
    (* atop_2_11.py:288-288 *) TopAssign "WWWStat" (EAttr (EName "atop_1_26") "WWWStat");
    (* atop_2_11.py:291-291 *) TopAssign "PerGPU" (EAttr (EName "atop_2_4") "PerGPU");
    (* atop_2_11.py:294-294 *) TopAssign "GPUStat" (EAttr (EName "atop_2_4") "GPUStat");
    (* atop_2_11.py:297-315 *) TopClass "PerIFB" [(EAttr (EName "ctypes") "Structure")] [
      CAssign "_fields_" (EList [(ETuple [(EStr "ibname"); (EBin OpMul (EAttr (EName "ctypes") "c_char") (EName "MAXIBNAME"))]); (ETuple [(EStr "portnr"); (EAttr (EName "ctypes") "c_short")]); (ETuple [(EStr "lanes"); (EAttr (EName "ctypes") "c_short")]); (ETuple [(EStr "rate"); (EName "count_t")]); (ETuple [(EStr "rcvb"); (EName "count_t")]); (ETuple [(EStr "sndb"); (EName "count_t")]); (ETuple [(EStr "rcvp"); (EName "count_t")]); (ETuple [(EStr "sndp"); (EName "count_t")]); (ETuple [(EStr "cfuture"); (EBin OpMul (EName "count_t") (EInt 4))])])];
    (* atop_2_11.py:318-332 *) TopClass "IFBStat" [(EAttr (EName "ctypes") "Structure")] [
      CAssign "_fields_" (EList [(ETuple [(EStr "nrports"); (EAttr (EName "ctypes") "c_int")]); (ETuple [(EStr "ifb"); (EBin OpMul (EName "PerIFB") (EName "MAXIBPORT"))])]);
      CAssign "fields_limiters" (EDict [((EStr "ifb"), (EStr "nrports"))])];
    (* atop_2_11.py:335-335 *) TopAssign "PerLLC" (EAttr (EName "atop_2_8") "PerLLC");
    (* atop_2_11.py:338-338 *) TopAssign "LLCStat" (EAttr (EName "atop_2_8") "LLCStat");
    (* atop_2_11.py:341-341 *) TopAssign "IPv4Stats" (EAttr (EName "atop_1_26") "IPv4Stats");
    (* atop_2_11.py:344-344 *) TopAssign "ICMPv4Stats" (EAttr (EName "atop_2_8") "ICMPv4Stats");
    (* atop_2_11.py:347-347 *) TopAssign "UDPv4Stats" (EAttr (EName "atop_1_26") "UDPv4Stats");
    (* atop_2_11.py:350-350 *) TopAssign "TCPStats" (EAttr (EName "atop_2_10") "TCPStats");
    (* atop_2_11.py:353-353 *) TopAssign "IPv6Stats" (EAttr (EName "atop_1_26") "IPv6Stats");
    (* atop_2_11.py:356-356 *) TopAssign "ICMPv6Stats" (EAttr (EName "atop_1_26") "ICMPv6Stats");
    (* atop_2_11.py:359-359 *) TopAssign "UDPv6Stats" (EAttr (EName "atop_1_26") "UDPv6Stats");
    (* atop_2_11.py:362-362 *) TopAssign "NETStat" (EAttr (EName "atop_2_10") "NETStat");
    (* atop_2_11.py:365-387 *) TopClass "SStat" [(EAttr (EName "ctypes") "Structure")] [
      CAssign "_fields_" (EList [(ETuple [(EStr "cpu"); (EName "CPUStat")]); (ETuple [(EStr "mem"); (EName "MemStat")]); (ETuple [(EStr "net"); (EName "NETStat")]); (ETuple [(EStr "intf"); (EName "IntfStat")]); (ETuple [(EStr "memnuma"); (EName "MemNUMA")]); (ETuple [(EStr "cpunuma"); (EName "CPUNUMA")]); (ETuple [(EStr "dsk"); (EName "DSKStat")]); (ETuple [(EStr "nfs"); (EName "NFSStat")]); (ETuple [(EStr "cfs"); (EName "ContStat")]); (ETuple [(EStr "psi"); (EName "Pressure")]); (ETuple [(EStr "gpu"); (EName "GPUStat")]); (ETuple [(EStr "ifb"); (EName "IFBStat")]); (ETuple [(EStr "llc"); (EName "LLCStat")]); (ETuple [(EStr "www"); (EName "WWWStat")])])];
    (* atop_2_11.py:390-428 *) TopClass "GEN" [(EAttr (EName "ctypes") "Structure")] [
      CAssign "_fields_" (EList [(ETuple [(EStr "tgid"); (EAttr (EName "ctypes") "c_int")]); (ETuple [(EStr "pid"); (EAttr (EName "ctypes") "c_int")]); (ETuple [(EStr "ppid"); (EAttr (EName "ctypes") "c_int")]); (ETuple [(EStr "ruid"); (EAttr (EName "ctypes") "c_int")]); (ETuple [(EStr "euid"); (EAttr (EName "ctypes") "c_int")]); (ETuple [(EStr "suid"); (EAttr (EName "ctypes") "c_int")]); (ETuple [(EStr "fsuid"); (EAttr (EName "ctypes") "c_int")]); (ETuple [(EStr "rgid"); (EAttr (EName "ctypes") "c_int")]); (ETuple [(EStr "egid"); (EAttr (EName "ctypes") "c_int")]); (ETuple [(EStr "sgid"); (EAttr (EName "ctypes") "c_int")]); (ETuple [(EStr "fsgid"); (EAttr (EName "ctypes") "c_int")]); (ETuple [(EStr "nthr"); (EAttr (EName "ctypes") "c_int")]); (ETuple [(EStr "name"); (EBin OpMul (EAttr (EName "ctypes") "c_char") (EBin OpAdd (EName "PNAMLEN") (EInt 1)))]); (ETuple [(EStr "isproc"); (EAttr (EName "ctypes") "c_char")]); (ETuple [(EStr "state"); (EAttr (EName "ctypes") "c_char")]); (ETuple [(EStr "excode"); (EAttr (EName "ctypes") "c_int")]); (ETuple [(EStr "btime"); (EName "time_t")]); (ETuple [(EStr "elaps"); (EName "time_t")]); (ETuple [(EStr "cmdline"); (EBin OpMul (EAttr (EName "ctypes") "c_char") (EBin OpAdd (EName "CMDLEN") (EInt 1)))]); (ETuple [(EStr "nthrslpi"); (EAttr (EName "ctypes") "c_int")]); (ETuple [(EStr "nthrslpu"); (EAttr (EName "ctypes") "c_int")]); (ETuple [(EStr "nthrrun"); (EAttr (EName "ctypes") "c_int")]); (ETuple [(EStr "nthridle"); (EAttr (EName "ctypes") "c_int")]); (ETuple [(EStr "ctid"); (EAttr (EName "ctypes") "c_int")]); (ETuple [(EStr "vpid"); (EAttr (EName "ctypes") "c_int")]); (ETuple [(EStr "wasinactive"); (EAttr (EName "ctypes") "c_int")]); (ETuple [(EStr "utsname"); (EBin OpMul (EAttr (EName "ctypes") "c_char") (EBin OpAdd (EName "UTSLEN") (EInt 1)))]); (ETuple [(EStr "cgroupix"); (EAttr (EName "ctypes") "c_int")]); (ETuple [(EStr "ifuture"); (EBin OpMul (EAttr (EName "ctypes") "c_int") (EInt 4))])])];
    (* atop_2_11.py:431-455 *) TopClass "CPU" [(EAttr (EName "ctypes") "Structure")] [
      CAssign "_fields_" (EList [(ETuple [(EStr "utime"); (EName "count_t")]); (ETuple [(EStr "stime"); (EName "count_t")]); (ETuple [(EStr "nice"); (EAttr (EName "ctypes") "c_int")]); (ETuple [(EStr "prio"); (EAttr (EName "ctypes") "c_int")]); (ETuple [(EStr "rtprio"); (EAttr (EName "ctypes") "c_int")]); (ETuple [(EStr "policy"); (EAttr (EName "ctypes") "c_int")]); (ETuple [(EStr "curcpu"); (EAttr (EName "ctypes") "c_int")]); (ETuple [(EStr "sleepavg"); (EAttr (EName "ctypes") "c_int")]); (ETuple [(EStr "ifuture"); (EBin OpMul (EAttr (EName "ctypes") "c_int") (EInt 6))]); (ETuple [(EStr "wchan"); (EBin OpMul (EAttr (EName "ctypes") "c_char") (EInt 16))]); (ETuple [(EStr "rundelay"); (EName "count_t")]); (ETuple [(EStr "blkdelay"); (EName "count_t")]); (ETuple [(EStr "nvcsw"); (EName "count_t")]); (ETuple [(EStr "nivcsw"); (EName "count_t")]); (ETuple [(EStr "cfuture"); (EBin OpMul (EName "count_t") (EInt 3))])])];
    (* atop_2_11.py:458-458 *) TopAssign "DSK" (EAttr (EName "atop_1_26") "DSK");
    (* atop_2_11.py:461-484 *) TopClass "MEM" [(EAttr (EName "ctypes") "Structure")] [
      CAssign "_fields_" (EList [(ETuple [(EStr "minflt"); (EName "count_t")]); (ETuple [(EStr "majflt"); (EName "count_t")]); (ETuple [(EStr "vexec"); (EName "count_t")]); (ETuple [(EStr "vmem"); (EName "count_t")]); (ETuple [(EStr "rmem"); (EName "count_t")]); (ETuple [(EStr "pmem"); (EName "count_t")]); (ETuple [(EStr "vgrow"); (EName "count_t")]); (ETuple [(EStr "rgrow"); (EName "count_t")]); (ETuple [(EStr "vdata"); (EName "count_t")]); (ETuple [(EStr "vstack"); (EName "count_t")]); (ETuple [(EStr "vlibs"); (EName "count_t")]); (ETuple [(EStr "vswap"); (EName "count_t")]); (ETuple [(EStr "vlock"); (EName "count_t")]); (ETuple [(EStr "cfuture"); (EBin OpMul (EName "count_t") (EInt 7))])])];
    (* atop_2_11.py:487-487 *) TopAssign "NET" (EAttr (EName "atop_2_3") "NET");
    (* atop_2_11.py:490-510 *) TopClass "GPU" [(EAttr (EName "ctypes") "Structure")] [
      CAssign "_fields_" (EList [(ETuple [(EStr "state"); (EAttr (EName "ctypes") "c_char")]); (ETuple [(EStr "bfuture"); (EBin OpMul (EAttr (EName "ctypes") "c_char") (EInt 3))]); (ETuple [(EStr "nrgpus"); (EAttr (EName "ctypes") "c_short")]); (ETuple [(EStr "gpulist"); (EAttr (EName "ctypes") "c_int32")]); (ETuple [(EStr "gpubusy"); (EAttr (EName "ctypes") "c_int")]); (ETuple [(EStr "membusy"); (EAttr (EName "ctypes") "c_int")]); (ETuple [(EStr "timems"); (EName "count_t")]); (ETuple [(EStr "memnow"); (EName "count_t")]); (ETuple [(EStr "memcum"); (EName "count_t")]); (ETuple [(EStr "sample"); (EName "count_t")]); (ETuple [(EStr "cfuture"); (EBin OpMul (EName "count_t") (EInt 3))])])];
    (* atop_2_11.py:513-527 *) TopClass "TStat" [(EAttr (EName "ctypes") "Structure")] [
      CAssign "_fields_" (EList [(ETuple [(EStr "gen"); (EName "GEN")]); (ETuple [(EStr "cpu"); (EName "CPU")]); (ETuple [(EStr "dsk"); (EName "DSK")]); (ETuple [(EStr "mem"); (EName "MEM")]); (ETuple [(EStr "net"); (EName "NET")]); (ETuple [(EStr "gpu"); (EName "GPU")])])];
    (* atop_2_11.py:530-550 *) TopClass "CGGen" [(EAttr (EName "ctypes") "Structure")] [
      CAssign "_fields_" (EList [(ETuple [(EStr "structlen"); (EAttr (EName "ctypes") "c_int")]); (ETuple [(EStr "sequence"); (EAttr (EName "ctypes") "c_int")]); (ETuple [(EStr "parentseq"); (EAttr (EName "ctypes") "c_int")]); (ETuple [(EStr "depth"); (EAttr (EName "ctypes") "c_int")]); (ETuple [(EStr "nprocs"); (EAttr (EName "ctypes") "c_int")]); (ETuple [(EStr "procsbelow"); (EAttr (EName "ctypes") "c_int")]); (ETuple [(EStr "namelen"); (EAttr (EName "ctypes") "c_int")]); (ETuple [(EStr "fullnamelen"); (EAttr (EName "ctypes") "c_int")]); (ETuple [(EStr "ifuture"); (EBin OpMul (EAttr (EName "ctypes") "c_int") (EInt 4))]); (ETuple [(EStr "namehash"); (EAttr (EName "ctypes") "c_long")]); (ETuple [(EStr "lfuture"); (EBin OpMul (EAttr (EName "ctypes") "c_long") (EInt 4))])])];
    (* atop_2_11.py:553-569 *) TopClass "CGConf" [(EAttr (EName "ctypes") "Structure")] [
      CAssign "_fields_" (EList [(ETuple [(EStr "cpuweight"); (EAttr (EName "ctypes") "c_int")]); (ETuple [(EStr "cpumax"); (EAttr (EName "ctypes") "c_int")]); (ETuple [(EStr "memmax"); (EName "count_t")]); (ETuple [(EStr "swpmax"); (EName "count_t")]); (ETuple [(EStr "dskweight"); (EAttr (EName "ctypes") "c_int")]); (ETuple [(EStr "ifuture"); (EBin OpMul (EAttr (EName "ctypes") "c_int") (EInt 5))]); (ETuple [(EStr "cfuture"); (EBin OpMul (EName "count_t") (EInt 5))])])];
    (* atop_2_11.py:572-586 *) TopClass "CGCPU" [(EAttr (EName "ctypes") "Structure")] [
      CAssign "_fields_" (EList [(ETuple [(EStr "utime"); (EName "count_t")]); (ETuple [(EStr "stime"); (EName "count_t")]); (ETuple [(EStr "somepres"); (EName "count_t")]); (ETuple [(EStr "fullpres"); (EName "count_t")]); (ETuple [(EStr "cfuture"); (EBin OpMul (EName "count_t") (EInt 5))])])];
    (* atop_2_11.py:589-606 *) TopClass "CGMem" [(EAttr (EName "ctypes") "Structure")] [
      CAssign "_fields_" (EList [(ETuple [(EStr "current"); (EName "count_t")]); (ETuple [(EStr "anon"); (EName "count_t")]); (ETuple [(EStr "file"); (EName "count_t")]); (ETuple [(EStr "kernel"); (EName "count_t")]); (ETuple [(EStr "shmem"); (EName "count_t")]); (ETuple [(EStr "somepres"); (EName "count_t")]); (ETuple [(EStr "fullpres"); (EName "count_t")]); (ETuple [(EStr "cfuture"); (EBin OpMul (EName "count_t") (EInt 5))])])];
    (* atop_2_11.py:609-625 *) TopClass "CGDSK" [(EAttr (EName "ctypes") "Structure")] [
      CAssign "_fields_" (EList [(ETuple [(EStr "rbytes"); (EName "count_t")]); (ETuple [(EStr "wbytes"); (EName "count_t")]); (ETuple [(EStr "rios"); (EName "count_t")]); (ETuple [(EStr "wios"); (EName "count_t")]); (ETuple [(EStr "somepres"); (EName "count_t")]); (ETuple [(EStr "fullpres"); (EName "count_t")]); (ETuple [(EStr "cfuture"); (EBin OpMul (EName "count_t") (EInt 5))])])];
    (* atop_2_11.py:628-642 *) TopClass "CStat" [(EAttr (EName "ctypes") "Structure")] [
      CAssign "_fields_" (EList [(ETuple [(EStr "gen"); (EName "CGGen")]); (ETuple [(EStr "conf"); (EName "CGConf")]); (ETuple [(EStr "cpu"); (EName "CGCPU")]); (ETuple [(EStr "mem"); (EName "CGMem")]); (ETuple [(EStr "dsk"); (EName "CGDSK")]); (ETuple [(EStr "cgname"); (EBin OpMul (EAttr (EName "ctypes") "c_char") (EInt 0))])])];
    (* atop_2_11.py:645-668 *) TopClass "CGChainer" [] [
      CAssign "_fields_" (EList [(ETuple [(EStr "cstat"); (EName "CStat")]); (ETuple [(EStr "proclist"); (ESub (EAttr (EName "ctypes") "Array") (EName "pid_t"))])]);
      CDef "__init__"];
    (* atop_2_11.py:671-705 *) TopClass "Header" [(EAttr (EName "ctypes") "Structure"); (EName "HeaderMixin")] [
      CAssign "_fields_" (EList [(ETuple [(EStr "magic"); (EAttr (EName "ctypes") "c_uint")]); (ETuple [(EStr "aversion"); (EAttr (EName "ctypes") "c_ushort")]); (ETuple [(EStr "future1"); (EAttr (EName "ctypes") "c_ushort")]); (ETuple [(EStr "future2"); (EAttr (EName "ctypes") "c_ushort")]); (ETuple [(EStr "rawheadlen"); (EAttr (EName "ctypes") "c_ushort")]); (ETuple [(EStr "rawreclen"); (EAttr (EName "ctypes") "c_ushort")]); (ETuple [(EStr "hertz"); (EAttr (EName "ctypes") "c_ushort")]); (ETuple [(EStr "pidwidth"); (EAttr (EName "ctypes") "c_ushort")]); (ETuple [(EStr "sfuture"); (EBin OpMul (EAttr (EName "ctypes") "c_ushort") (EInt 5))]); (ETuple [(EStr "sstatlen"); (EAttr (EName "ctypes") "c_uint")]); (ETuple [(EStr "tstatlen"); (EAttr (EName "ctypes") "c_uint")]); (ETuple [(EStr "utsname"); (EName "UTSName")]); (ETuple [(EStr "cfuture"); (EBin OpMul (EAttr (EName "ctypes") "c_char") (EInt 8))]); (ETuple [(EStr "pagesize"); (EAttr (EName "ctypes") "c_uint")]); (ETuple [(EStr "supportflags"); (EAttr (EName "ctypes") "c_int")]); (ETuple [(EStr "osrel"); (EAttr (EName "ctypes") "c_int")]); (ETuple [(EStr "osvers"); (EAttr (EName "ctypes") "c_int")]); (ETuple [(EStr "ossub"); (EAttr (EName "ctypes") "c_int")]); (ETuple [(EStr "cstatlen"); (EAttr (EName "ctypes") "c_int")]); (ETuple [(EStr "ifuture"); (EBin OpMul (EAttr (EName "ctypes") "c_int") (EInt 5))])]);
      CAssign "supported_version" (EStr "2.11");
      CAssign "Record" (EName "Record");
      CAssign "SStat" (EName "SStat");
      CAssign "TStat" (EName "TStat");
      CAssign "CStat" (EName "CStat");
      CAssign "CGChainer" (EName "CGChainer")]].

(** atoparser/structs/atop_2_12.py *)
Definition text_atop_2_12 : list top :=
  [
    (* atop_2_12.py:16-16 *) TopImport "ctypes" "ctypes" None;
    (* atop_2_12.py:18-18 *) TopImport "atop_1_26" "atoparser.structs" (Some "atop_1_26");
    (* atop_2_12.py:19-19 *) TopImport "atop_2_3" "atoparser.structs" (Some "atop_2_3");
    (* atop_2_12.py:20-20 *) TopImport "atop_2_4" "atoparser.structs" (Some "atop_2_4");
    (* atop_2_12.py:21-21 *) TopImport "atop_2_7" "atoparser.structs" (Some "atop_2_7");
    (* atop_2_12.py:22-22 *) TopImport "atop_2_8" "atoparser.structs" (Some "atop_2_8");
    (* atop_2_12.py:23-23 *) TopImport "atop_2_10" "atoparser.structs" (Some "atop_2_10");
    (* atop_2_12.py:24-24 *) TopImport "atop_2_11" "atoparser.structs" (Some "atop_2_11");
    (* atop_2_12.py:25-25 *) TopImport "HeaderMixin" "atoparser.structs.shared" (Some "HeaderMixin");
    (* atop_2_12.py:32-32 *) TopAssign "ACCTACTIVE" (EInt 1);
    (* atop_2_12.py:33-33 *) TopAssign "IOSTAT" (EInt 4);
    (* atop_2_12.py:34-34 *) TopAssign "NETATOP" (EInt 16);
    (* atop_2_12.py:35-35 *) TopAssign "NETATOPD" (EInt 32);
    (* atop_2_12.py:36-36 *) TopAssign "CONTAINERSTAT" (EInt 64);
    (* atop_2_12.py:37-37 *) TopAssign "GPUSTAT" (EInt 128);
    (* atop_2_12.py:38-38 *) TopAssign "CGROUPV2" (EInt 256);
    (* atop_2_12.py:39-39 *) TopAssign "NETATOPBPF" (EInt 4096);
    (* atop_2_12.py:42-42 *) TopAssign "PNAMLEN" (EInt 15);
    (* atop_2_12.py:43-43 *) TopAssign "CMDLEN" (EInt 255);
    (* atop_2_12.py:44-44 *) TopAssign "CGRLEN" (EInt 64);
    (* atop_2_12.py:45-45 *) TopAssign "UTSLEN" (EInt 15);
    (* atop_2_12.py:48-48 *) TopAssign "MAXCPU" (EInt 2048);
    (* atop_2_12.py:49-49 *) TopAssign "MAXDSK" (EInt 1024);
    (* atop_2_12.py:50-50 *) TopAssign "MAXNUMA" (EInt 1024);
    (* atop_2_12.py:51-51 *) TopAssign "MAXLVM" (EInt 2048);
    (* atop_2_12.py:52-52 *) TopAssign "MAXMDD" (EInt 256);
    (* atop_2_12.py:53-53 *) TopAssign "MAXINTF" (EInt 128);
    (* atop_2_12.py:54-54 *) TopAssign "MAXCONTAINER" (EInt 128);
    (* atop_2_12.py:55-55 *) TopAssign "MAXNFSMOUNT" (EInt 64);
    (* atop_2_12.py:56-56 *) TopAssign "MAXIBPORT" (EInt 32);
    (* atop_2_12.py:57-57 *) TopAssign "MAXGPU" (EInt 32);
    (* atop_2_12.py:58-58 *) TopAssign "MAXGPUBUS" (EInt 12);
    (* atop_2_12.py:59-59 *) TopAssign "MAXGPUTYPE" (EInt 12);
    (* atop_2_12.py:60-60 *) TopAssign "MAXLLC" (EInt 256);
    (* atop_2_12.py:61-61 *) TopAssign "MAXDKNAM" (EInt 32);
    (* atop_2_12.py:62-62 *) TopAssign "MAXIBNAME" (EInt 12);
    (* atop_2_12.py:65-65 *) TopAssign "Record" (EAttr (EName "atop_2_11") "Record");
    (* atop_2_12.py:68-68 *) TopAssign "MemStat" (EAttr (EName "atop_2_11") "MemStat");
    (* atop_2_12.py:71-71 *) TopAssign "MemPerNUMA" (EAttr (EName "atop_2_11") "MemPerNUMA");
    (* atop_2_12.py:74-74 *) TopAssign "MemNUMA" (EAttr (EName "atop_2_11") "MemNUMA");
    (* atop_2_12.py:77-77 *) TopAssign "CPUPerNUMA" (EAttr (EName "atop_2_11") "CPUPerNUMA");
    (* atop_2_12.py:80-80 *) TopAssign "CPUNUMA" (EAttr (EName "atop_2_11") "CPUNUMA");
    (* atop_2_12.py:83-83 *) TopAssign "FreqCnt" (EAttr (EName "atop_1_26") "FreqCnt");
    (* atop_2_12.py:86-86 *) TopAssign "PerCPU" (EAttr (EName "atop_2_7") "PerCPU");
    (* atop_2_12.py:89-89 *) TopAssign "CPUStat" (EAttr (EName "atop_2_7") "CPUStat");
    (* atop_2_12.py:92-92 *) TopAssign "PerDSK" (EAttr (EName "atop_2_8") "PerDSK");
    (* atop_2_12.py:95-95 *) TopAssign "DSKStat" (EAttr (EName "atop_2_8") "DSKStat");
    (* atop_2_12.py:98-98 *) TopAssign "PerIntf" (EAttr (EName "atop_2_3") "PerIntf");
    (* atop_2_12.py:101-101 *) TopAssign "IntfStat" (EAttr (EName "atop_2_3") "IntfStat");
    (* atop_2_12.py:104-104 *) TopAssign "PerNFSMount" (EAttr (EName "atop_2_3") "PerNFSMount");
    (* atop_2_12.py:107-107 *) TopAssign "Server" (EAttr (EName "atop_2_3") "Server");
    (* atop_2_12.py:110-110 *) TopAssign "Client" (EAttr (EName "atop_2_3") "Client");
    (* atop_2_12.py:113-113 *) TopAssign "NFSMounts" (EAttr (EName "atop_2_3") "NFSMounts");
    (* atop_2_12.py:116-116 *) TopAssign "NFSStat" (EAttr (EName "atop_2_3") "NFSStat");
    (* atop_2_12.py:119-119 *) TopAssign "PSI" (EAttr (EName "atop_2_4") "PSI");
    (* atop_2_12.py:122-122 *) TopAssign "Pressure" (EAttr (EName "atop_2_4") "Pressure");
    (* atop_2_12.py:125-125 *) TopAssign "PerContainer" (EAttr (EName "atop_2_3") "PerContainer");
    (* atop_2_12.py:128-128 *) TopAssign "ContStat" (EAttr (EName "atop_2_3") "ContStat");
    (* atop_2_12.py:131-131 *) TopAssign "WWWStat" (EAttr (EName "atop_1_26") "WWWStat");
    (* atop_2_12.py:134-134 *) TopAssign "PerGPU" (EAttr (EName "atop_2_4") "PerGPU");
    (* atop_2_12.py:137-137 *) TopAssign "GPUStat" (EAttr (EName "atop_2_4") "GPUStat");
    (* atop_2_12.py:140-140 *) TopAssign "PerIFB" (EAttr (EName "atop_2_11") "PerIFB");
    (* atop_2_12.py:143-143 *) TopAssign "IFBStat" (EAttr (EName "atop_2_11") "IFBStat");
    (* atop_2_12.py:146-146 *) TopAssign "PerLLC" (EAttr (EName "atop_2_8") "PerLLC");
    (* atop_2_12.py:149-149 *) TopAssign "LLCStat" (EAttr (EName "atop_2_8") "LLCStat");
    (* atop_2_12.py:152-152 *) TopAssign "IPv4Stats" (EAttr (EName "atop_1_26") "IPv4Stats");
    (* atop_2_12.py:155-155 *) TopAssign "ICMPv4Stats" (EAttr (EName "atop_2_8") "ICMPv4Stats");
    (* atop_2_12.py:158-158 *) TopAssign "UDPv4Stats" (EAttr (EName "atop_1_26") "UDPv4Stats");
    (* atop_2_12.py:161-161 *) TopAssign "TCPStats" (EAttr (EName "atop_2_10") "TCPStats");
    (* atop_2_12.py:164-164 *) TopAssign "IPv6Stats" (EAttr (EName "atop_1_26") "IPv6Stats");
    (* atop_2_12.py:167-167 *) TopAssign "ICMPv6Stats" (EAttr (EName "atop_1_26") "ICMPv6Stats");
    (* atop_2_12.py:170-170 *) TopAssign "UDPv6Stats" (EAttr (EName "atop_1_26") "UDPv6Stats");
    (* atop_2_12.py:173-173 *) TopAssign "NETStat" (EAttr (EName "atop_2_10") "NETStat");
    (* atop_2_12.py:176-176 *) TopAssign "SStat" (EAttr (EName "atop_2_11") "SStat");
    (* atop_2_12.py:179-179 *) TopAssign "GEN" (EAttr (EName "atop_2_11") "GEN");
    (* atop_2_12.py:182-182 *) TopAssign "CPU" (EAttr (EName "atop_2_11") "CPU");
    (* atop_2_12.py:185-185 *) TopAssign "DSK" (EAttr (EName "atop_1_26") "DSK");
    (* atop_2_12.py:188-188 *) TopAssign "MEM" (EAttr (EName "atop_2_11") "MEM");
    (* atop_2_12.py:191-191 *) TopAssign "NET" (EAttr (EName "atop_2_3") "NET");
    (* atop_2_12.py:194-194 *) TopAssign "GPU" (EAttr (EName "atop_2_11") "GPU");
    (* atop_2_12.py:197-197 *) TopAssign "TStat" (EAttr (EName "atop_2_11") "TStat");
    (* atop_2_12.py:200-200 *) TopAssign "CGGen" (EAttr (EName "atop_2_11") "CGGen");
    (* atop_2_12.py:203-203 *) TopAssign "CGConf" (EAttr (EName "atop_2_11") "CGConf");
    (* atop_2_12.py:206-206 *) TopAssign "CGCPU" (EAttr (EName "atop_2_11") "CGCPU");
    (* atop_2_12.py:209-209 *) TopAssign "CGMem" (EAttr (EName "atop_2_11") "CGMem");
    (* atop_2_12.py:212-212 *) TopAssign "CGDSK" (EAttr (EName "atop_2_11") "CGDSK");
    (* atop_2_12.py:215-215 *) TopAssign "CStat" (EAttr (EName "atop_2_11") "CStat");
    (* atop_2_12.py:218-218 *) TopAssign "CGChainer" (EAttr (EName "atop_2_11") "CGChainer");
    (* atop_2_12.py:221-234 *) TopClass "Header" [(EAttr (EName "ctypes") "Structure"); (EName "HeaderMixin")] [
      CAssign "_fields_" (EAttr (EAttr (EName "atop_2_11") "Header") "_fields_");
      CAssign "supported_version" (EStr "2.12");
      CAssign "Record" (EName "Record");
      CAssign "SStat" (EName "SStat");
      CAssign "TStat" (EName "TStat");
      CAssign "CStat" (EName "CStat");
      CAssign "CGChainer" (EName "CGChainer")]].

(** In an order in which every module comes after those it imports. *)
Definition struct_source : list (string * list top) :=
  [("atoparser.structs.shared", text_shared); ("atoparser.structs.atop_1_26", text_atop_1_26); ("atoparser.structs.atop_2_3", text_atop_2_3); ("atoparser.structs.atop_2_4", text_atop_2_4); ("atoparser.structs.atop_2_5", text_atop_2_5); ("atoparser.structs.atop_2_6", text_atop_2_6); ("atoparser.structs.atop_2_7", text_atop_2_7); ("atoparser.structs.atop_2_8", text_atop_2_8); ("atoparser.structs.atop_2_9", text_atop_2_9); ("atoparser.structs.atop_2_10", text_atop_2_10); ("atoparser.structs.atop_2_11", text_atop_2_11); ("atoparser.structs.atop_2_12", text_atop_2_12)].
