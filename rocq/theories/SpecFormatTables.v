(** * The rows of all versions (for C51)

    GENERATED by tools/gen_format.py, which asks CPython's ctypes for the offsets; do not edit. *)
From Coq Require Import List ZArith String.
From Verif Require Import SpecFormat.
Import ListNotations.
Local Open Scope Z_scope.
Local Open Scope string_scope.

Definition header_1_26 : list row := [
   R [F "magic"] 0 U32 [];
   R [F "aversion"] 4 U16 [];
   R [F "future1"] 6 U16 [];
   R [F "future2"] 8 U16 [];
   R [F "rawheadlen"] 10 U16 [];
   R [F "rawreclen"] 12 U16 [];
   R [F "hertz"] 14 U16 [];
   R [F "sfuture"; E] 16 U16 [D 6 2 None];
   R [F "sstatlen"] 28 U32 [];
   R [F "pstatlen"] 32 U32 [];
   R [F "utsname"; F "sysname"] 36 (Text 65) [];
   R [F "utsname"; F "nodename"] 101 (Text 65) [];
   R [F "utsname"; F "release"] 166 (Text 65) [];
   R [F "utsname"; F "version"] 231 (Text 65) [];
   R [F "utsname"; F "machine"] 296 (Text 65) [];
   R [F "utsname"; F "domain"] 361 (Text 65) [];
   R [F "cfuture"] 426 (Text 8) [];
   R [F "pagesize"] 436 U32 [];
   R [F "supportflags"] 440 I32 [];
   R [F "osrel"] 444 I32 [];
   R [F "osvers"] 448 I32 [];
   R [F "ossub"] 452 I32 [];
   R [F "ifuture"; E] 456 I32 [D 6 4 None]].

Definition record_1_26 : list row := [
   R [F "curtime"] 0 I64 [];
   R [F "flags"] 8 U16 [];
   R [F "sfuture"; E] 10 U16 [D 3 2 None];
   R [F "scomplen"] 16 U32 [];
   R [F "pcomplen"] 20 U32 [];
   R [F "interval"] 24 U32 [];
   R [F "nlist"] 28 U32 [];
   R [F "npresent"] 32 U32 [];
   R [F "nexit"] 36 U32 [];
   R [F "ntrun"] 40 U32 [];
   R [F "ntslpi"] 44 U32 [];
   R [F "ntslpu"] 48 U32 [];
   R [F "nzombie"] 52 U32 [];
   R [F "ifuture"; E] 56 U32 [D 6 4 None]].

Definition sstat_1_26 : list row := [
   R [F "cpu"; F "nrcpu"] 0 I64 [];
   R [F "cpu"; F "devint"] 8 I64 [];
   R [F "cpu"; F "csw"] 16 I64 [];
   R [F "cpu"; F "nprocs"] 24 I64 [];
   R [F "cpu"; F "lavg1"] 32 F32 [];
   R [F "cpu"; F "lavg5"] 36 F32 [];
   R [F "cpu"; F "lavg15"] 40 F32 [];
   R [F "cpu"; F "cfuture"; E] 48 I64 [D 4 8 None];
   R [F "cpu"; F "all"; F "cpunr"] 80 I32 [];
   R [F "cpu"; F "all"; F "stime"] 88 I64 [];
   R [F "cpu"; F "all"; F "utime"] 96 I64 [];
   R [F "cpu"; F "all"; F "ntime"] 104 I64 [];
   R [F "cpu"; F "all"; F "itime"] 112 I64 [];
   R [F "cpu"; F "all"; F "wtime"] 120 I64 [];
   R [F "cpu"; F "all"; F "Itime"] 128 I64 [];
   R [F "cpu"; F "all"; F "Stime"] 136 I64 [];
   R [F "cpu"; F "all"; F "steal"] 144 I64 [];
   R [F "cpu"; F "all"; F "guest"] 152 I64 [];
   R [F "cpu"; F "all"; F "freqcnt"; F "maxfreq"] 160 I64 [];
   R [F "cpu"; F "all"; F "freqcnt"; F "cnt"] 168 I64 [];
   R [F "cpu"; F "all"; F "freqcnt"; F "ticks"] 176 I64 [];
   R [F "cpu"; F "all"; F "cfuture"; E] 184 I64 [D 1 8 None];
   R [F "cpu"; F "cpu"; E; F "cpunr"] 192 I32 [D 64 112 (Some (0, I64))];
   R [F "cpu"; F "cpu"; E; F "stime"] 200 I64 [D 64 112 (Some (0, I64))];
   R [F "cpu"; F "cpu"; E; F "utime"] 208 I64 [D 64 112 (Some (0, I64))];
   R [F "cpu"; F "cpu"; E; F "ntime"] 216 I64 [D 64 112 (Some (0, I64))];
   R [F "cpu"; F "cpu"; E; F "itime"] 224 I64 [D 64 112 (Some (0, I64))];
   R [F "cpu"; F "cpu"; E; F "wtime"] 232 I64 [D 64 112 (Some (0, I64))];
   R [F "cpu"; F "cpu"; E; F "Itime"] 240 I64 [D 64 112 (Some (0, I64))];
   R [F "cpu"; F "cpu"; E; F "Stime"] 248 I64 [D 64 112 (Some (0, I64))];
   R [F "cpu"; F "cpu"; E; F "steal"] 256 I64 [D 64 112 (Some (0, I64))];
   R [F "cpu"; F "cpu"; E; F "guest"] 264 I64 [D 64 112 (Some (0, I64))];
   R [F "cpu"; F "cpu"; E; F "freqcnt"; F "maxfreq"] 272 I64 [D 64 112 (Some (0, I64))];
   R [F "cpu"; F "cpu"; E; F "freqcnt"; F "cnt"] 280 I64 [D 64 112 (Some (0, I64))];
   R [F "cpu"; F "cpu"; E; F "freqcnt"; F "ticks"] 288 I64 [D 64 112 (Some (0, I64))];
   R [F "cpu"; F "cpu"; E; F "cfuture"; E] 296 I64 [D 64 112 (Some (0, I64)); D 1 8 None];
   R [F "mem"; F "physmem"] 7360 I64 [];
   R [F "mem"; F "freemem"] 7368 I64 [];
   R [F "mem"; F "buffermem"] 7376 I64 [];
   R [F "mem"; F "slabmem"] 7384 I64 [];
   R [F "mem"; F "cachemem"] 7392 I64 [];
   R [F "mem"; F "cachedrt"] 7400 I64 [];
   R [F "mem"; F "totswap"] 7408 I64 [];
   R [F "mem"; F "freeswap"] 7416 I64 [];
   R [F "mem"; F "pgscans"] 7424 I64 [];
   R [F "mem"; F "allocstall"] 7432 I64 [];
   R [F "mem"; F "swouts"] 7440 I64 [];
   R [F "mem"; F "swins"] 7448 I64 [];
   R [F "mem"; F "commitlim"] 7456 I64 [];
   R [F "mem"; F "committed"] 7464 I64 [];
   R [F "mem"; F "cfuture"; E] 7472 I64 [D 4 8 None];
   R [F "net"; F "ipv4"; F "Forwarding"] 7504 I64 [];
   R [F "net"; F "ipv4"; F "DefaultTTL"] 7512 I64 [];
   R [F "net"; F "ipv4"; F "InReceives"] 7520 I64 [];
   R [F "net"; F "ipv4"; F "InHdrErrors"] 7528 I64 [];
   R [F "net"; F "ipv4"; F "InAddrErrors"] 7536 I64 [];
   R [F "net"; F "ipv4"; F "ForwDatagrams"] 7544 I64 [];
   R [F "net"; F "ipv4"; F "InUnknownProtos"] 7552 I64 [];
   R [F "net"; F "ipv4"; F "InDiscards"] 7560 I64 [];
   R [F "net"; F "ipv4"; F "InDelivers"] 7568 I64 [];
   R [F "net"; F "ipv4"; F "OutRequests"] 7576 I64 [];
   R [F "net"; F "ipv4"; F "OutDiscards"] 7584 I64 [];
   R [F "net"; F "ipv4"; F "OutNoRoutes"] 7592 I64 [];
   R [F "net"; F "ipv4"; F "ReasmTimeout"] 7600 I64 [];
   R [F "net"; F "ipv4"; F "ReasmReqds"] 7608 I64 [];
   R [F "net"; F "ipv4"; F "ReasmOKs"] 7616 I64 [];
   R [F "net"; F "ipv4"; F "ReasmFails"] 7624 I64 [];
   R [F "net"; F "ipv4"; F "FragOKs"] 7632 I64 [];
   R [F "net"; F "ipv4"; F "FragFails"] 7640 I64 [];
   R [F "net"; F "ipv4"; F "FragCreates"] 7648 I64 [];
   R [F "net"; F "icmpv4"; F "InMsgs"] 7656 I64 [];
   R [F "net"; F "icmpv4"; F "InErrors"] 7664 I64 [];
   R [F "net"; F "icmpv4"; F "InDestUnreachs"] 7672 I64 [];
   R [F "net"; F "icmpv4"; F "InTimeExcds"] 7680 I64 [];
   R [F "net"; F "icmpv4"; F "InParmProbs"] 7688 I64 [];
   R [F "net"; F "icmpv4"; F "InSrcQuenchs"] 7696 I64 [];
   R [F "net"; F "icmpv4"; F "InRedirects"] 7704 I64 [];
   R [F "net"; F "icmpv4"; F "InEchos"] 7712 I64 [];
   R [F "net"; F "icmpv4"; F "InEchoReps"] 7720 I64 [];
   R [F "net"; F "icmpv4"; F "InTimestamps"] 7728 I64 [];
   R [F "net"; F "icmpv4"; F "InTimestampReps"] 7736 I64 [];
   R [F "net"; F "icmpv4"; F "InAddrMasks"] 7744 I64 [];
   R [F "net"; F "icmpv4"; F "InAddrMaskReps"] 7752 I64 [];
   R [F "net"; F "icmpv4"; F "OutMsgs"] 7760 I64 [];
   R [F "net"; F "icmpv4"; F "OutErrors"] 7768 I64 [];
   R [F "net"; F "icmpv4"; F "OutDestUnreachs"] 7776 I64 [];
   R [F "net"; F "icmpv4"; F "OutTimeExcds"] 7784 I64 [];
   R [F "net"; F "icmpv4"; F "OutParmProbs"] 7792 I64 [];
   R [F "net"; F "icmpv4"; F "OutSrcQuenchs"] 7800 I64 [];
   R [F "net"; F "icmpv4"; F "OutRedirects"] 7808 I64 [];
   R [F "net"; F "icmpv4"; F "OutEchos"] 7816 I64 [];
   R [F "net"; F "icmpv4"; F "OutEchoReps"] 7824 I64 [];
   R [F "net"; F "icmpv4"; F "OutTimestamps"] 7832 I64 [];
   R [F "net"; F "icmpv4"; F "OutTimestampReps"] 7840 I64 [];
   R [F "net"; F "icmpv4"; F "OutAddrMasks"] 7848 I64 [];
   R [F "net"; F "icmpv4"; F "OutAddrMaskReps"] 7856 I64 [];
   R [F "net"; F "udpv4"; F "InDatagrams"] 7864 I64 [];
   R [F "net"; F "udpv4"; F "NoPorts"] 7872 I64 [];
   R [F "net"; F "udpv4"; F "InErrors"] 7880 I64 [];
   R [F "net"; F "udpv4"; F "OutDatagrams"] 7888 I64 [];
   R [F "net"; F "ipv6"; F "Ip6InReceives"] 7896 I64 [];
   R [F "net"; F "ipv6"; F "Ip6InHdrErrors"] 7904 I64 [];
   R [F "net"; F "ipv6"; F "Ip6InTooBigErrors"] 7912 I64 [];
   R [F "net"; F "ipv6"; F "Ip6InNoRoutes"] 7920 I64 [];
   R [F "net"; F "ipv6"; F "Ip6InAddrErrors"] 7928 I64 [];
   R [F "net"; F "ipv6"; F "Ip6InUnknownProtos"] 7936 I64 [];
   R [F "net"; F "ipv6"; F "Ip6InTruncatedPkts"] 7944 I64 [];
   R [F "net"; F "ipv6"; F "Ip6InDiscards"] 7952 I64 [];
   R [F "net"; F "ipv6"; F "Ip6InDelivers"] 7960 I64 [];
   R [F "net"; F "ipv6"; F "Ip6OutForwDatagrams"] 7968 I64 [];
   R [F "net"; F "ipv6"; F "Ip6OutRequests"] 7976 I64 [];
   R [F "net"; F "ipv6"; F "Ip6OutDiscards"] 7984 I64 [];
   R [F "net"; F "ipv6"; F "Ip6OutNoRoutes"] 7992 I64 [];
   R [F "net"; F "ipv6"; F "Ip6ReasmTimeout"] 8000 I64 [];
   R [F "net"; F "ipv6"; F "Ip6ReasmReqds"] 8008 I64 [];
   R [F "net"; F "ipv6"; F "Ip6ReasmOKs"] 8016 I64 [];
   R [F "net"; F "ipv6"; F "Ip6ReasmFails"] 8024 I64 [];
   R [F "net"; F "ipv6"; F "Ip6FragOKs"] 8032 I64 [];
   R [F "net"; F "ipv6"; F "Ip6FragFails"] 8040 I64 [];
   R [F "net"; F "ipv6"; F "Ip6FragCreates"] 8048 I64 [];
   R [F "net"; F "ipv6"; F "Ip6InMcastPkts"] 8056 I64 [];
   R [F "net"; F "ipv6"; F "Ip6OutMcastPkts"] 8064 I64 [];
   R [F "net"; F "icmpv6"; F "Icmp6InMsgs"] 8072 I64 [];
   R [F "net"; F "icmpv6"; F "Icmp6InErrors"] 8080 I64 [];
   R [F "net"; F "icmpv6"; F "Icmp6InDestUnreachs"] 8088 I64 [];
   R [F "net"; F "icmpv6"; F "Icmp6InPktTooBigs"] 8096 I64 [];
   R [F "net"; F "icmpv6"; F "Icmp6InTimeExcds"] 8104 I64 [];
   R [F "net"; F "icmpv6"; F "Icmp6InParmProblems"] 8112 I64 [];
   R [F "net"; F "icmpv6"; F "Icmp6InEchos"] 8120 I64 [];
   R [F "net"; F "icmpv6"; F "Icmp6InEchoReplies"] 8128 I64 [];
   R [F "net"; F "icmpv6"; F "Icmp6InGroupMembQueries"] 8136 I64 [];
   R [F "net"; F "icmpv6"; F "Icmp6InGroupMembResponses"] 8144 I64 [];
   R [F "net"; F "icmpv6"; F "Icmp6InGroupMembReductions"] 8152 I64 [];
   R [F "net"; F "icmpv6"; F "Icmp6InRouterSolicits"] 8160 I64 [];
   R [F "net"; F "icmpv6"; F "Icmp6InRouterAdvertisements"] 8168 I64 [];
   R [F "net"; F "icmpv6"; F "Icmp6InNeighborSolicits"] 8176 I64 [];
   R [F "net"; F "icmpv6"; F "Icmp6InNeighborAdvertisements"] 8184 I64 [];
   R [F "net"; F "icmpv6"; F "Icmp6InRedirects"] 8192 I64 [];
   R [F "net"; F "icmpv6"; F "Icmp6OutMsgs"] 8200 I64 [];
   R [F "net"; F "icmpv6"; F "Icmp6OutDestUnreachs"] 8208 I64 [];
   R [F "net"; F "icmpv6"; F "Icmp6OutPktTooBigs"] 8216 I64 [];
   R [F "net"; F "icmpv6"; F "Icmp6OutTimeExcds"] 8224 I64 [];
   R [F "net"; F "icmpv6"; F "Icmp6OutParmProblems"] 8232 I64 [];
   R [F "net"; F "icmpv6"; F "Icmp6OutEchoReplies"] 8240 I64 [];
   R [F "net"; F "icmpv6"; F "Icmp6OutRouterSolicits"] 8248 I64 [];
   R [F "net"; F "icmpv6"; F "Icmp6OutNeighborSolicits"] 8256 I64 [];
   R [F "net"; F "icmpv6"; F "Icmp6OutNeighborAdvertisements"] 8264 I64 [];
   R [F "net"; F "icmpv6"; F "Icmp6OutRedirects"] 8272 I64 [];
   R [F "net"; F "icmpv6"; F "Icmp6OutGroupMembResponses"] 8280 I64 [];
   R [F "net"; F "icmpv6"; F "Icmp6OutGroupMembReductions"] 8288 I64 [];
   R [F "net"; F "udpv6"; F "Udp6InDatagrams"] 8296 I64 [];
   R [F "net"; F "udpv6"; F "Udp6NoPorts"] 8304 I64 [];
   R [F "net"; F "udpv6"; F "Udp6InErrors"] 8312 I64 [];
   R [F "net"; F "udpv6"; F "Udp6OutDatagrams"] 8320 I64 [];
   R [F "net"; F "tcp"; F "RtoAlgorithm"] 8328 I64 [];
   R [F "net"; F "tcp"; F "RtoMin"] 8336 I64 [];
   R [F "net"; F "tcp"; F "RtoMax"] 8344 I64 [];
   R [F "net"; F "tcp"; F "MaxConn"] 8352 I64 [];
   R [F "net"; F "tcp"; F "ActiveOpens"] 8360 I64 [];
   R [F "net"; F "tcp"; F "PassiveOpens"] 8368 I64 [];
   R [F "net"; F "tcp"; F "AttemptFails"] 8376 I64 [];
   R [F "net"; F "tcp"; F "EstabResets"] 8384 I64 [];
   R [F "net"; F "tcp"; F "CurrEstab"] 8392 I64 [];
   R [F "net"; F "tcp"; F "InSegs"] 8400 I64 [];
   R [F "net"; F "tcp"; F "OutSegs"] 8408 I64 [];
   R [F "net"; F "tcp"; F "RetransSegs"] 8416 I64 [];
   R [F "net"; F "tcp"; F "InErrs"] 8424 I64 [];
   R [F "net"; F "tcp"; F "OutRsts"] 8432 I64 [];
   R [F "intf"; F "nrintf"] 8440 I32 [];
   R [F "intf"; F "intf"; E; F "name"] 8448 (Text 16) [D 32 256 (Some (8440, I32))];
   R [F "intf"; F "intf"; E; F "rbyte"] 8464 I64 [D 32 256 (Some (8440, I32))];
   R [F "intf"; F "intf"; E; F "rpack"] 8472 I64 [D 32 256 (Some (8440, I32))];
   R [F "intf"; F "intf"; E; F "rerrs"] 8480 I64 [D 32 256 (Some (8440, I32))];
   R [F "intf"; F "intf"; E; F "rdrop"] 8488 I64 [D 32 256 (Some (8440, I32))];
   R [F "intf"; F "intf"; E; F "rfifo"] 8496 I64 [D 32 256 (Some (8440, I32))];
   R [F "intf"; F "intf"; E; F "rframe"] 8504 I64 [D 32 256 (Some (8440, I32))];
   R [F "intf"; F "intf"; E; F "rcompr"] 8512 I64 [D 32 256 (Some (8440, I32))];
   R [F "intf"; F "intf"; E; F "rmultic"] 8520 I64 [D 32 256 (Some (8440, I32))];
   R [F "intf"; F "intf"; E; F "rfuture"; E] 8528 I64 [D 32 256 (Some (8440, I32)); D 4 8 None];
   R [F "intf"; F "intf"; E; F "sbyte"] 8560 I64 [D 32 256 (Some (8440, I32))];
   R [F "intf"; F "intf"; E; F "spack"] 8568 I64 [D 32 256 (Some (8440, I32))];
   R [F "intf"; F "intf"; E; F "serrs"] 8576 I64 [D 32 256 (Some (8440, I32))];
   R [F "intf"; F "intf"; E; F "sdrop"] 8584 I64 [D 32 256 (Some (8440, I32))];
   R [F "intf"; F "intf"; E; F "sfifo"] 8592 I64 [D 32 256 (Some (8440, I32))];
   R [F "intf"; F "intf"; E; F "scollis"] 8600 I64 [D 32 256 (Some (8440, I32))];
   R [F "intf"; F "intf"; E; F "scarrier"] 8608 I64 [D 32 256 (Some (8440, I32))];
   R [F "intf"; F "intf"; E; F "scompr"] 8616 I64 [D 32 256 (Some (8440, I32))];
   R [F "intf"; F "intf"; E; F "sfuture"; E] 8624 I64 [D 32 256 (Some (8440, I32)); D 4 8 None];
   R [F "intf"; F "intf"; E; F "speed"] 8656 I64 [D 32 256 (Some (8440, I32))];
   R [F "intf"; F "intf"; E; F "duplex"] 8664 Chr [D 32 256 (Some (8440, I32))];
   R [F "intf"; F "intf"; E; F "cfuture"; E] 8672 I64 [D 32 256 (Some (8440, I32)); D 4 8 None];
   R [F "dsk"; F "ndsk"] 16640 I32 [];
   R [F "dsk"; F "nmdd"] 16644 I32 [];
   R [F "dsk"; F "nlvm"] 16648 I32 [];
   R [F "dsk"; F "dsk"; E; F "name"] 16656 (Text 32) [D 256 112 (Some (16640, I32))];
   R [F "dsk"; F "dsk"; E; F "nread"] 16688 I64 [D 256 112 (Some (16640, I32))];
   R [F "dsk"; F "dsk"; E; F "nrsect"] 16696 I64 [D 256 112 (Some (16640, I32))];
   R [F "dsk"; F "dsk"; E; F "nwrite"] 16704 I64 [D 256 112 (Some (16640, I32))];
   R [F "dsk"; F "dsk"; E; F "nwsect"] 16712 I64 [D 256 112 (Some (16640, I32))];
   R [F "dsk"; F "dsk"; E; F "io_ms"] 16720 I64 [D 256 112 (Some (16640, I32))];
   R [F "dsk"; F "dsk"; E; F "avque"] 16728 I64 [D 256 112 (Some (16640, I32))];
   R [F "dsk"; F "dsk"; E; F "cfuture"; E] 16736 I64 [D 256 112 (Some (16640, I32)); D 4 8 None];
   R [F "dsk"; F "mdd"; E; F "name"] 45328 (Text 32) [D 128 112 (Some (16644, I32))];
   R [F "dsk"; F "mdd"; E; F "nread"] 45360 I64 [D 128 112 (Some (16644, I32))];
   R [F "dsk"; F "mdd"; E; F "nrsect"] 45368 I64 [D 128 112 (Some (16644, I32))];
   R [F "dsk"; F "mdd"; E; F "nwrite"] 45376 I64 [D 128 112 (Some (16644, I32))];
   R [F "dsk"; F "mdd"; E; F "nwsect"] 45384 I64 [D 128 112 (Some (16644, I32))];
   R [F "dsk"; F "mdd"; E; F "io_ms"] 45392 I64 [D 128 112 (Some (16644, I32))];
   R [F "dsk"; F "mdd"; E; F "avque"] 45400 I64 [D 128 112 (Some (16644, I32))];
   R [F "dsk"; F "mdd"; E; F "cfuture"; E] 45408 I64 [D 128 112 (Some (16644, I32)); D 4 8 None];
   R [F "dsk"; F "lvm"; E; F "name"] 59664 (Text 32) [D 256 112 (Some (16648, I32))];
   R [F "dsk"; F "lvm"; E; F "nread"] 59696 I64 [D 256 112 (Some (16648, I32))];
   R [F "dsk"; F "lvm"; E; F "nrsect"] 59704 I64 [D 256 112 (Some (16648, I32))];
   R [F "dsk"; F "lvm"; E; F "nwrite"] 59712 I64 [D 256 112 (Some (16648, I32))];
   R [F "dsk"; F "lvm"; E; F "nwsect"] 59720 I64 [D 256 112 (Some (16648, I32))];
   R [F "dsk"; F "lvm"; E; F "io_ms"] 59728 I64 [D 256 112 (Some (16648, I32))];
   R [F "dsk"; F "lvm"; E; F "avque"] 59736 I64 [D 256 112 (Some (16648, I32))];
   R [F "dsk"; F "lvm"; E; F "cfuture"; E] 59744 I64 [D 256 112 (Some (16648, I32)); D 4 8 None];
   R [F "www"; F "accesses"] 88336 I64 [];
   R [F "www"; F "totkbytes"] 88344 I64 [];
   R [F "www"; F "uptime"] 88352 I64 [];
   R [F "www"; F "bworkers"] 88360 I32 [];
   R [F "www"; F "iworkers"] 88364 I32 []].

Definition tstat_1_26 : list row := [
   R [F "gen"; F "pid"] 0 I32 [];
   R [F "gen"; F "ppid"] 4 I32 [];
   R [F "gen"; F "ruid"] 8 I32 [];
   R [F "gen"; F "euid"] 12 I32 [];
   R [F "gen"; F "suid"] 16 I32 [];
   R [F "gen"; F "fsuid"] 20 I32 [];
   R [F "gen"; F "rgid"] 24 I32 [];
   R [F "gen"; F "egid"] 28 I32 [];
   R [F "gen"; F "sgid"] 32 I32 [];
   R [F "gen"; F "fsgid"] 36 I32 [];
   R [F "gen"; F "nthr"] 40 I32 [];
   R [F "gen"; F "name"] 44 (Text 16) [];
   R [F "gen"; F "state"] 60 Chr [];
   R [F "gen"; F "excode"] 64 I32 [];
   R [F "gen"; F "btime"] 72 I64 [];
   R [F "gen"; F "elaps"] 80 I64 [];
   R [F "gen"; F "cmdline"] 88 (Text 151) [];
   R [F "gen"; F "nthrslpi"] 240 I32 [];
   R [F "gen"; F "nthrslpu"] 244 I32 [];
   R [F "gen"; F "nthrrun"] 248 I32 [];
   R [F "gen"; F "ifuture"; E] 252 I32 [D 1 4 None];
   R [F "cpu"; F "utime"] 256 I64 [];
   R [F "cpu"; F "stime"] 264 I64 [];
   R [F "cpu"; F "nice"] 272 I32 [];
   R [F "cpu"; F "prio"] 276 I32 [];
   R [F "cpu"; F "rtprio"] 280 I32 [];
   R [F "cpu"; F "policy"] 284 I32 [];
   R [F "cpu"; F "curcpu"] 288 I32 [];
   R [F "cpu"; F "sleepavg"] 292 I32 [];
   R [F "cpu"; F "ifuture"; E] 296 I32 [D 4 4 None];
   R [F "cpu"; F "cfuture"; E] 312 I64 [D 4 8 None];
   R [F "dsk"; F "rio"] 344 I64 [];
   R [F "dsk"; F "rsz"] 352 I64 [];
   R [F "dsk"; F "wio"] 360 I64 [];
   R [F "dsk"; F "wsz"] 368 I64 [];
   R [F "dsk"; F "cwsz"] 376 I64 [];
   R [F "dsk"; F "cfuture"; E] 384 I64 [D 4 8 None];
   R [F "mem"; F "minflt"] 416 I64 [];
   R [F "mem"; F "majflt"] 424 I64 [];
   R [F "mem"; F "shtext"] 432 I64 [];
   R [F "mem"; F "vmem"] 440 I64 [];
   R [F "mem"; F "rmem"] 448 I64 [];
   R [F "mem"; F "vgrow"] 456 I64 [];
   R [F "mem"; F "rgrow"] 464 I64 [];
   R [F "mem"; F "cfuture"; E] 472 I64 [D 4 8 None];
   R [F "net"; F "tcpsnd"] 504 I64 [];
   R [F "net"; F "tcpssz"] 512 I64 [];
   R [F "net"; F "tcprcv"] 520 I64 [];
   R [F "net"; F "tcprsz"] 528 I64 [];
   R [F "net"; F "udpsnd"] 536 I64 [];
   R [F "net"; F "udpssz"] 544 I64 [];
   R [F "net"; F "udprcv"] 552 I64 [];
   R [F "net"; F "udprsz"] 560 I64 [];
   R [F "net"; F "rawsnd"] 568 I64 [];
   R [F "net"; F "rawrcv"] 576 I64 [];
   R [F "net"; F "cfuture"; E] 584 I64 [D 4 8 None]].

Definition header_2_3 : list row := [
   R [F "magic"] 0 U32 [];
   R [F "aversion"] 4 U16 [];
   R [F "future1"] 6 U16 [];
   R [F "future2"] 8 U16 [];
   R [F "rawheadlen"] 10 U16 [];
   R [F "rawreclen"] 12 U16 [];
   R [F "hertz"] 14 U16 [];
   R [F "sfuture"; E] 16 U16 [D 6 2 None];
   R [F "sstatlen"] 28 U32 [];
   R [F "tstatlen"] 32 U32 [];
   R [F "utsname"; F "sysname"] 36 (Text 65) [];
   R [F "utsname"; F "nodename"] 101 (Text 65) [];
   R [F "utsname"; F "release"] 166 (Text 65) [];
   R [F "utsname"; F "version"] 231 (Text 65) [];
   R [F "utsname"; F "machine"] 296 (Text 65) [];
   R [F "utsname"; F "domain"] 361 (Text 65) [];
   R [F "cfuture"] 426 (Text 8) [];
   R [F "pagesize"] 436 U32 [];
   R [F "supportflags"] 440 I32 [];
   R [F "osrel"] 444 I32 [];
   R [F "osvers"] 448 I32 [];
   R [F "ossub"] 452 I32 [];
   R [F "ifuture"; E] 456 I32 [D 6 4 None]].

Definition record_2_3 : list row := [
   R [F "curtime"] 0 I64 [];
   R [F "flags"] 8 U16 [];
   R [F "sfuture"; E] 10 U16 [D 3 2 None];
   R [F "scomplen"] 16 U32 [];
   R [F "pcomplen"] 20 U32 [];
   R [F "interval"] 24 U32 [];
   R [F "ndeviat"] 28 U32 [];
   R [F "nactproc"] 32 U32 [];
   R [F "ntask"] 36 U32 [];
   R [F "totproc"] 40 U32 [];
   R [F "totrun"] 44 U32 [];
   R [F "totslpi"] 48 U32 [];
   R [F "totslpu"] 52 U32 [];
   R [F "totzomb"] 56 U32 [];
   R [F "nexit"] 60 U32 [];
   R [F "noverflow"] 64 U32 [];
   R [F "ifuture"; E] 68 U32 [D 6 4 None]].

Definition sstat_2_3 : list row := [
   R [F "cpu"; F "nrcpu"] 0 I64 [];
   R [F "cpu"; F "devint"] 8 I64 [];
   R [F "cpu"; F "csw"] 16 I64 [];
   R [F "cpu"; F "nprocs"] 24 I64 [];
   R [F "cpu"; F "lavg1"] 32 F32 [];
   R [F "cpu"; F "lavg5"] 36 F32 [];
   R [F "cpu"; F "lavg15"] 40 F32 [];
   R [F "cpu"; F "cfuture"; E] 48 I64 [D 4 8 None];
   R [F "cpu"; F "all"; F "cpunr"] 80 I32 [];
   R [F "cpu"; F "all"; F "stime"] 88 I64 [];
   R [F "cpu"; F "all"; F "utime"] 96 I64 [];
   R [F "cpu"; F "all"; F "ntime"] 104 I64 [];
   R [F "cpu"; F "all"; F "itime"] 112 I64 [];
   R [F "cpu"; F "all"; F "wtime"] 120 I64 [];
   R [F "cpu"; F "all"; F "Itime"] 128 I64 [];
   R [F "cpu"; F "all"; F "Stime"] 136 I64 [];
   R [F "cpu"; F "all"; F "steal"] 144 I64 [];
   R [F "cpu"; F "all"; F "guest"] 152 I64 [];
   R [F "cpu"; F "all"; F "freqcnt"; F "maxfreq"] 160 I64 [];
   R [F "cpu"; F "all"; F "freqcnt"; F "cnt"] 168 I64 [];
   R [F "cpu"; F "all"; F "freqcnt"; F "ticks"] 176 I64 [];
   R [F "cpu"; F "all"; F "cfuture"; E] 184 I64 [D 4 8 None];
   R [F "cpu"; F "cpu"; E; F "cpunr"] 216 I32 [D 2048 136 (Some (0, I64))];
   R [F "cpu"; F "cpu"; E; F "stime"] 224 I64 [D 2048 136 (Some (0, I64))];
   R [F "cpu"; F "cpu"; E; F "utime"] 232 I64 [D 2048 136 (Some (0, I64))];
   R [F "cpu"; F "cpu"; E; F "ntime"] 240 I64 [D 2048 136 (Some (0, I64))];
   R [F "cpu"; F "cpu"; E; F "itime"] 248 I64 [D 2048 136 (Some (0, I64))];
   R [F "cpu"; F "cpu"; E; F "wtime"] 256 I64 [D 2048 136 (Some (0, I64))];
   R [F "cpu"; F "cpu"; E; F "Itime"] 264 I64 [D 2048 136 (Some (0, I64))];
   R [F "cpu"; F "cpu"; E; F "Stime"] 272 I64 [D 2048 136 (Some (0, I64))];
   R [F "cpu"; F "cpu"; E; F "steal"] 280 I64 [D 2048 136 (Some (0, I64))];
   R [F "cpu"; F "cpu"; E; F "guest"] 288 I64 [D 2048 136 (Some (0, I64))];
   R [F "cpu"; F "cpu"; E; F "freqcnt"; F "maxfreq"] 296 I64 [D 2048 136 (Some (0, I64))];
   R [F "cpu"; F "cpu"; E; F "freqcnt"; F "cnt"] 304 I64 [D 2048 136 (Some (0, I64))];
   R [F "cpu"; F "cpu"; E; F "freqcnt"; F "ticks"] 312 I64 [D 2048 136 (Some (0, I64))];
   R [F "cpu"; F "cpu"; E; F "cfuture"; E] 320 I64 [D 2048 136 (Some (0, I64)); D 4 8 None];
   R [F "mem"; F "physmem"] 278744 I64 [];
   R [F "mem"; F "freemem"] 278752 I64 [];
   R [F "mem"; F "buffermem"] 278760 I64 [];
   R [F "mem"; F "slabmem"] 278768 I64 [];
   R [F "mem"; F "cachemem"] 278776 I64 [];
   R [F "mem"; F "cachedrt"] 278784 I64 [];
   R [F "mem"; F "totswap"] 278792 I64 [];
   R [F "mem"; F "freeswap"] 278800 I64 [];
   R [F "mem"; F "pgscans"] 278808 I64 [];
   R [F "mem"; F "pgsteal"] 278816 I64 [];
   R [F "mem"; F "allocstall"] 278824 I64 [];
   R [F "mem"; F "swouts"] 278832 I64 [];
   R [F "mem"; F "swins"] 278840 I64 [];
   R [F "mem"; F "commitlim"] 278848 I64 [];
   R [F "mem"; F "committed"] 278856 I64 [];
   R [F "mem"; F "shmem"] 278864 I64 [];
   R [F "mem"; F "shmrss"] 278872 I64 [];
   R [F "mem"; F "shmswp"] 278880 I64 [];
   R [F "mem"; F "slabreclaim"] 278888 I64 [];
   R [F "mem"; F "tothugepage"] 278896 I64 [];
   R [F "mem"; F "freehugepage"] 278904 I64 [];
   R [F "mem"; F "hugepagesz"] 278912 I64 [];
   R [F "mem"; F "vmwballoon"] 278920 I64 [];
   R [F "mem"; F "cfuture"; E] 278928 I64 [D 8 8 None];
   R [F "net"; F "ipv4"; F "Forwarding"] 278992 I64 [];
   R [F "net"; F "ipv4"; F "DefaultTTL"] 279000 I64 [];
   R [F "net"; F "ipv4"; F "InReceives"] 279008 I64 [];
   R [F "net"; F "ipv4"; F "InHdrErrors"] 279016 I64 [];
   R [F "net"; F "ipv4"; F "InAddrErrors"] 279024 I64 [];
   R [F "net"; F "ipv4"; F "ForwDatagrams"] 279032 I64 [];
   R [F "net"; F "ipv4"; F "InUnknownProtos"] 279040 I64 [];
   R [F "net"; F "ipv4"; F "InDiscards"] 279048 I64 [];
   R [F "net"; F "ipv4"; F "InDelivers"] 279056 I64 [];
   R [F "net"; F "ipv4"; F "OutRequests"] 279064 I64 [];
   R [F "net"; F "ipv4"; F "OutDiscards"] 279072 I64 [];
   R [F "net"; F "ipv4"; F "OutNoRoutes"] 279080 I64 [];
   R [F "net"; F "ipv4"; F "ReasmTimeout"] 279088 I64 [];
   R [F "net"; F "ipv4"; F "ReasmReqds"] 279096 I64 [];
   R [F "net"; F "ipv4"; F "ReasmOKs"] 279104 I64 [];
   R [F "net"; F "ipv4"; F "ReasmFails"] 279112 I64 [];
   R [F "net"; F "ipv4"; F "FragOKs"] 279120 I64 [];
   R [F "net"; F "ipv4"; F "FragFails"] 279128 I64 [];
   R [F "net"; F "ipv4"; F "FragCreates"] 279136 I64 [];
   R [F "net"; F "icmpv4"; F "InMsgs"] 279144 I64 [];
   R [F "net"; F "icmpv4"; F "InErrors"] 279152 I64 [];
   R [F "net"; F "icmpv4"; F "InDestUnreachs"] 279160 I64 [];
   R [F "net"; F "icmpv4"; F "InTimeExcds"] 279168 I64 [];
   R [F "net"; F "icmpv4"; F "InParmProbs"] 279176 I64 [];
   R [F "net"; F "icmpv4"; F "InSrcQuenchs"] 279184 I64 [];
   R [F "net"; F "icmpv4"; F "InRedirects"] 279192 I64 [];
   R [F "net"; F "icmpv4"; F "InEchos"] 279200 I64 [];
   R [F "net"; F "icmpv4"; F "InEchoReps"] 279208 I64 [];
   R [F "net"; F "icmpv4"; F "InTimestamps"] 279216 I64 [];
   R [F "net"; F "icmpv4"; F "InTimestampReps"] 279224 I64 [];
   R [F "net"; F "icmpv4"; F "InAddrMasks"] 279232 I64 [];
   R [F "net"; F "icmpv4"; F "InAddrMaskReps"] 279240 I64 [];
   R [F "net"; F "icmpv4"; F "OutMsgs"] 279248 I64 [];
   R [F "net"; F "icmpv4"; F "OutErrors"] 279256 I64 [];
   R [F "net"; F "icmpv4"; F "OutDestUnreachs"] 279264 I64 [];
   R [F "net"; F "icmpv4"; F "OutTimeExcds"] 279272 I64 [];
   R [F "net"; F "icmpv4"; F "OutParmProbs"] 279280 I64 [];
   R [F "net"; F "icmpv4"; F "OutSrcQuenchs"] 279288 I64 [];
   R [F "net"; F "icmpv4"; F "OutRedirects"] 279296 I64 [];
   R [F "net"; F "icmpv4"; F "OutEchos"] 279304 I64 [];
   R [F "net"; F "icmpv4"; F "OutEchoReps"] 279312 I64 [];
   R [F "net"; F "icmpv4"; F "OutTimestamps"] 279320 I64 [];
   R [F "net"; F "icmpv4"; F "OutTimestampReps"] 279328 I64 [];
   R [F "net"; F "icmpv4"; F "OutAddrMasks"] 279336 I64 [];
   R [F "net"; F "icmpv4"; F "OutAddrMaskReps"] 279344 I64 [];
   R [F "net"; F "udpv4"; F "InDatagrams"] 279352 I64 [];
   R [F "net"; F "udpv4"; F "NoPorts"] 279360 I64 [];
   R [F "net"; F "udpv4"; F "InErrors"] 279368 I64 [];
   R [F "net"; F "udpv4"; F "OutDatagrams"] 279376 I64 [];
   R [F "net"; F "ipv6"; F "Ip6InReceives"] 279384 I64 [];
   R [F "net"; F "ipv6"; F "Ip6InHdrErrors"] 279392 I64 [];
   R [F "net"; F "ipv6"; F "Ip6InTooBigErrors"] 279400 I64 [];
   R [F "net"; F "ipv6"; F "Ip6InNoRoutes"] 279408 I64 [];
   R [F "net"; F "ipv6"; F "Ip6InAddrErrors"] 279416 I64 [];
   R [F "net"; F "ipv6"; F "Ip6InUnknownProtos"] 279424 I64 [];
   R [F "net"; F "ipv6"; F "Ip6InTruncatedPkts"] 279432 I64 [];
   R [F "net"; F "ipv6"; F "Ip6InDiscards"] 279440 I64 [];
   R [F "net"; F "ipv6"; F "Ip6InDelivers"] 279448 I64 [];
   R [F "net"; F "ipv6"; F "Ip6OutForwDatagrams"] 279456 I64 [];
   R [F "net"; F "ipv6"; F "Ip6OutRequests"] 279464 I64 [];
   R [F "net"; F "ipv6"; F "Ip6OutDiscards"] 279472 I64 [];
   R [F "net"; F "ipv6"; F "Ip6OutNoRoutes"] 279480 I64 [];
   R [F "net"; F "ipv6"; F "Ip6ReasmTimeout"] 279488 I64 [];
   R [F "net"; F "ipv6"; F "Ip6ReasmReqds"] 279496 I64 [];
   R [F "net"; F "ipv6"; F "Ip6ReasmOKs"] 279504 I64 [];
   R [F "net"; F "ipv6"; F "Ip6ReasmFails"] 279512 I64 [];
   R [F "net"; F "ipv6"; F "Ip6FragOKs"] 279520 I64 [];
   R [F "net"; F "ipv6"; F "Ip6FragFails"] 279528 I64 [];
   R [F "net"; F "ipv6"; F "Ip6FragCreates"] 279536 I64 [];
   R [F "net"; F "ipv6"; F "Ip6InMcastPkts"] 279544 I64 [];
   R [F "net"; F "ipv6"; F "Ip6OutMcastPkts"] 279552 I64 [];
   R [F "net"; F "icmpv6"; F "Icmp6InMsgs"] 279560 I64 [];
   R [F "net"; F "icmpv6"; F "Icmp6InErrors"] 279568 I64 [];
   R [F "net"; F "icmpv6"; F "Icmp6InDestUnreachs"] 279576 I64 [];
   R [F "net"; F "icmpv6"; F "Icmp6InPktTooBigs"] 279584 I64 [];
   R [F "net"; F "icmpv6"; F "Icmp6InTimeExcds"] 279592 I64 [];
   R [F "net"; F "icmpv6"; F "Icmp6InParmProblems"] 279600 I64 [];
   R [F "net"; F "icmpv6"; F "Icmp6InEchos"] 279608 I64 [];
   R [F "net"; F "icmpv6"; F "Icmp6InEchoReplies"] 279616 I64 [];
   R [F "net"; F "icmpv6"; F "Icmp6InGroupMembQueries"] 279624 I64 [];
   R [F "net"; F "icmpv6"; F "Icmp6InGroupMembResponses"] 279632 I64 [];
   R [F "net"; F "icmpv6"; F "Icmp6InGroupMembReductions"] 279640 I64 [];
   R [F "net"; F "icmpv6"; F "Icmp6InRouterSolicits"] 279648 I64 [];
   R [F "net"; F "icmpv6"; F "Icmp6InRouterAdvertisements"] 279656 I64 [];
   R [F "net"; F "icmpv6"; F "Icmp6InNeighborSolicits"] 279664 I64 [];
   R [F "net"; F "icmpv6"; F "Icmp6InNeighborAdvertisements"] 279672 I64 [];
   R [F "net"; F "icmpv6"; F "Icmp6InRedirects"] 279680 I64 [];
   R [F "net"; F "icmpv6"; F "Icmp6OutMsgs"] 279688 I64 [];
   R [F "net"; F "icmpv6"; F "Icmp6OutDestUnreachs"] 279696 I64 [];
   R [F "net"; F "icmpv6"; F "Icmp6OutPktTooBigs"] 279704 I64 [];
   R [F "net"; F "icmpv6"; F "Icmp6OutTimeExcds"] 279712 I64 [];
   R [F "net"; F "icmpv6"; F "Icmp6OutParmProblems"] 279720 I64 [];
   R [F "net"; F "icmpv6"; F "Icmp6OutEchoReplies"] 279728 I64 [];
   R [F "net"; F "icmpv6"; F "Icmp6OutRouterSolicits"] 279736 I64 [];
   R [F "net"; F "icmpv6"; F "Icmp6OutNeighborSolicits"] 279744 I64 [];
   R [F "net"; F "icmpv6"; F "Icmp6OutNeighborAdvertisements"] 279752 I64 [];
   R [F "net"; F "icmpv6"; F "Icmp6OutRedirects"] 279760 I64 [];
   R [F "net"; F "icmpv6"; F "Icmp6OutGroupMembResponses"] 279768 I64 [];
   R [F "net"; F "icmpv6"; F "Icmp6OutGroupMembReductions"] 279776 I64 [];
   R [F "net"; F "udpv6"; F "Udp6InDatagrams"] 279784 I64 [];
   R [F "net"; F "udpv6"; F "Udp6NoPorts"] 279792 I64 [];
   R [F "net"; F "udpv6"; F "Udp6InErrors"] 279800 I64 [];
   R [F "net"; F "udpv6"; F "Udp6OutDatagrams"] 279808 I64 [];
   R [F "net"; F "tcp"; F "RtoAlgorithm"] 279816 I64 [];
   R [F "net"; F "tcp"; F "RtoMin"] 279824 I64 [];
   R [F "net"; F "tcp"; F "RtoMax"] 279832 I64 [];
   R [F "net"; F "tcp"; F "MaxConn"] 279840 I64 [];
   R [F "net"; F "tcp"; F "ActiveOpens"] 279848 I64 [];
   R [F "net"; F "tcp"; F "PassiveOpens"] 279856 I64 [];
   R [F "net"; F "tcp"; F "AttemptFails"] 279864 I64 [];
   R [F "net"; F "tcp"; F "EstabResets"] 279872 I64 [];
   R [F "net"; F "tcp"; F "CurrEstab"] 279880 I64 [];
   R [F "net"; F "tcp"; F "InSegs"] 279888 I64 [];
   R [F "net"; F "tcp"; F "OutSegs"] 279896 I64 [];
   R [F "net"; F "tcp"; F "RetransSegs"] 279904 I64 [];
   R [F "net"; F "tcp"; F "InErrs"] 279912 I64 [];
   R [F "net"; F "tcp"; F "OutRsts"] 279920 I64 [];
   R [F "intf"; F "nrintf"] 279928 I32 [];
   R [F "intf"; F "intf"; E; F "name"] 279936 (Text 16) [D 128 272 (Some (279928, I32))];
   R [F "intf"; F "intf"; E; F "rbyte"] 279952 I64 [D 128 272 (Some (279928, I32))];
   R [F "intf"; F "intf"; E; F "rpack"] 279960 I64 [D 128 272 (Some (279928, I32))];
   R [F "intf"; F "intf"; E; F "rerrs"] 279968 I64 [D 128 272 (Some (279928, I32))];
   R [F "intf"; F "intf"; E; F "rdrop"] 279976 I64 [D 128 272 (Some (279928, I32))];
   R [F "intf"; F "intf"; E; F "rfifo"] 279984 I64 [D 128 272 (Some (279928, I32))];
   R [F "intf"; F "intf"; E; F "rframe"] 279992 I64 [D 128 272 (Some (279928, I32))];
   R [F "intf"; F "intf"; E; F "rcompr"] 280000 I64 [D 128 272 (Some (279928, I32))];
   R [F "intf"; F "intf"; E; F "rmultic"] 280008 I64 [D 128 272 (Some (279928, I32))];
   R [F "intf"; F "intf"; E; F "rfuture"; E] 280016 I64 [D 128 272 (Some (279928, I32)); D 4 8 None];
   R [F "intf"; F "intf"; E; F "sbyte"] 280048 I64 [D 128 272 (Some (279928, I32))];
   R [F "intf"; F "intf"; E; F "spack"] 280056 I64 [D 128 272 (Some (279928, I32))];
   R [F "intf"; F "intf"; E; F "serrs"] 280064 I64 [D 128 272 (Some (279928, I32))];
   R [F "intf"; F "intf"; E; F "sdrop"] 280072 I64 [D 128 272 (Some (279928, I32))];
   R [F "intf"; F "intf"; E; F "sfifo"] 280080 I64 [D 128 272 (Some (279928, I32))];
   R [F "intf"; F "intf"; E; F "scollis"] 280088 I64 [D 128 272 (Some (279928, I32))];
   R [F "intf"; F "intf"; E; F "scarrier"] 280096 I64 [D 128 272 (Some (279928, I32))];
   R [F "intf"; F "intf"; E; F "scompr"] 280104 I64 [D 128 272 (Some (279928, I32))];
   R [F "intf"; F "intf"; E; F "sfuture"; E] 280112 I64 [D 128 272 (Some (279928, I32)); D 4 8 None];
   R [F "intf"; F "intf"; E; F "type"] 280144 Chr [D 128 272 (Some (279928, I32))];
   R [F "intf"; F "intf"; E; F "speed"] 280152 I64 [D 128 272 (Some (279928, I32))];
   R [F "intf"; F "intf"; E; F "speedp"] 280160 I64 [D 128 272 (Some (279928, I32))];
   R [F "intf"; F "intf"; E; F "duplex"] 280168 Chr [D 128 272 (Some (279928, I32))];
   R [F "intf"; F "intf"; E; F "cfuture"; E] 280176 I64 [D 128 272 (Some (279928, I32)); D 4 8 None];
   R [F "dsk"; F "ndsk"] 314752 I32 [];
   R [F "dsk"; F "nmdd"] 314756 I32 [];
   R [F "dsk"; F "nlvm"] 314760 I32 [];
   R [F "dsk"; F "dsk"; E; F "name"] 314768 (Text 32) [D 1024 112 (Some (314752, I32))];
   R [F "dsk"; F "dsk"; E; F "nread"] 314800 I64 [D 1024 112 (Some (314752, I32))];
   R [F "dsk"; F "dsk"; E; F "nrsect"] 314808 I64 [D 1024 112 (Some (314752, I32))];
   R [F "dsk"; F "dsk"; E; F "nwrite"] 314816 I64 [D 1024 112 (Some (314752, I32))];
   R [F "dsk"; F "dsk"; E; F "nwsect"] 314824 I64 [D 1024 112 (Some (314752, I32))];
   R [F "dsk"; F "dsk"; E; F "io_ms"] 314832 I64 [D 1024 112 (Some (314752, I32))];
   R [F "dsk"; F "dsk"; E; F "avque"] 314840 I64 [D 1024 112 (Some (314752, I32))];
   R [F "dsk"; F "dsk"; E; F "cfuture"; E] 314848 I64 [D 1024 112 (Some (314752, I32)); D 4 8 None];
   R [F "dsk"; F "mdd"; E; F "name"] 429456 (Text 32) [D 256 112 (Some (314756, I32))];
   R [F "dsk"; F "mdd"; E; F "nread"] 429488 I64 [D 256 112 (Some (314756, I32))];
   R [F "dsk"; F "mdd"; E; F "nrsect"] 429496 I64 [D 256 112 (Some (314756, I32))];
   R [F "dsk"; F "mdd"; E; F "nwrite"] 429504 I64 [D 256 112 (Some (314756, I32))];
   R [F "dsk"; F "mdd"; E; F "nwsect"] 429512 I64 [D 256 112 (Some (314756, I32))];
   R [F "dsk"; F "mdd"; E; F "io_ms"] 429520 I64 [D 256 112 (Some (314756, I32))];
   R [F "dsk"; F "mdd"; E; F "avque"] 429528 I64 [D 256 112 (Some (314756, I32))];
   R [F "dsk"; F "mdd"; E; F "cfuture"; E] 429536 I64 [D 256 112 (Some (314756, I32)); D 4 8 None];
   R [F "dsk"; F "lvm"; E; F "name"] 458128 (Text 32) [D 2048 112 (Some (314760, I32))];
   R [F "dsk"; F "lvm"; E; F "nread"] 458160 I64 [D 2048 112 (Some (314760, I32))];
   R [F "dsk"; F "lvm"; E; F "nrsect"] 458168 I64 [D 2048 112 (Some (314760, I32))];
   R [F "dsk"; F "lvm"; E; F "nwrite"] 458176 I64 [D 2048 112 (Some (314760, I32))];
   R [F "dsk"; F "lvm"; E; F "nwsect"] 458184 I64 [D 2048 112 (Some (314760, I32))];
   R [F "dsk"; F "lvm"; E; F "io_ms"] 458192 I64 [D 2048 112 (Some (314760, I32))];
   R [F "dsk"; F "lvm"; E; F "avque"] 458200 I64 [D 2048 112 (Some (314760, I32))];
   R [F "dsk"; F "lvm"; E; F "cfuture"; E] 458208 I64 [D 2048 112 (Some (314760, I32)); D 4 8 None];
   R [F "nfs"; F "server"; F "netcnt"] 687504 I64 [];
   R [F "nfs"; F "server"; F "netudpcnt"] 687512 I64 [];
   R [F "nfs"; F "server"; F "nettcpcnt"] 687520 I64 [];
   R [F "nfs"; F "server"; F "nettcpcon"] 687528 I64 [];
   R [F "nfs"; F "server"; F "rpccnt"] 687536 I64 [];
   R [F "nfs"; F "server"; F "rpcbadfmt"] 687544 I64 [];
   R [F "nfs"; F "server"; F "rpcbadaut"] 687552 I64 [];
   R [F "nfs"; F "server"; F "rpcbadcln"] 687560 I64 [];
   R [F "nfs"; F "server"; F "rpcread"] 687568 I64 [];
   R [F "nfs"; F "server"; F "rpcwrite"] 687576 I64 [];
   R [F "nfs"; F "server"; F "rchits"] 687584 I64 [];
   R [F "nfs"; F "server"; F "rcmiss"] 687592 I64 [];
   R [F "nfs"; F "server"; F "rcnoca"] 687600 I64 [];
   R [F "nfs"; F "server"; F "nrbytes"] 687608 I64 [];
   R [F "nfs"; F "server"; F "nwbytes"] 687616 I64 [];
   R [F "nfs"; F "server"; F "future"; E] 687624 I64 [D 8 8 None];
   R [F "nfs"; F "client"; F "rpccnt"] 687688 I64 [];
   R [F "nfs"; F "client"; F "rpcretrans"] 687696 I64 [];
   R [F "nfs"; F "client"; F "rpcautrefresh"] 687704 I64 [];
   R [F "nfs"; F "client"; F "rpcread"] 687712 I64 [];
   R [F "nfs"; F "client"; F "rpcwrite"] 687720 I64 [];
   R [F "nfs"; F "client"; F "future"; E] 687728 I64 [D 8 8 None];
   R [F "nfs"; F "nfsmounts"; F "nrmounts"] 687792 I32 [];
   R [F "nfs"; F "nfsmounts"; F "nfsmnt"; E; F "mountdev"] 687800 (Text 128) [D 64 264 (Some (687792, I32))];
   R [F "nfs"; F "nfsmounts"; F "nfsmnt"; E; F "age"] 687928 I64 [D 64 264 (Some (687792, I32))];
   R [F "nfs"; F "nfsmounts"; F "nfsmnt"; E; F "bytesread"] 687936 I64 [D 64 264 (Some (687792, I32))];
   R [F "nfs"; F "nfsmounts"; F "nfsmnt"; E; F "byteswrite"] 687944 I64 [D 64 264 (Some (687792, I32))];
   R [F "nfs"; F "nfsmounts"; F "nfsmnt"; E; F "bytesdread"] 687952 I64 [D 64 264 (Some (687792, I32))];
   R [F "nfs"; F "nfsmounts"; F "nfsmnt"; E; F "bytesdwrite"] 687960 I64 [D 64 264 (Some (687792, I32))];
   R [F "nfs"; F "nfsmounts"; F "nfsmnt"; E; F "bytestotread"] 687968 I64 [D 64 264 (Some (687792, I32))];
   R [F "nfs"; F "nfsmounts"; F "nfsmnt"; E; F "bytestotwrite"] 687976 I64 [D 64 264 (Some (687792, I32))];
   R [F "nfs"; F "nfsmounts"; F "nfsmnt"; E; F "pagesmread"] 687984 I64 [D 64 264 (Some (687792, I32))];
   R [F "nfs"; F "nfsmounts"; F "nfsmnt"; E; F "pagesmwrite"] 687992 I64 [D 64 264 (Some (687792, I32))];
   R [F "nfs"; F "nfsmounts"; F "nfsmnt"; E; F "future"; E] 688000 I64 [D 64 264 (Some (687792, I32)); D 8 8 None];
   R [F "cfs"; F "nrcontainer"] 704696 I32 [];
   R [F "cfs"; F "cont"; E; F "ctid"] 704704 U64 [D 128 56 (Some (704696, I32))];
   R [F "cfs"; F "cont"; E; F "numproc"] 704712 U64 [D 128 56 (Some (704696, I32))];
   R [F "cfs"; F "cont"; E; F "system"] 704720 I64 [D 128 56 (Some (704696, I32))];
   R [F "cfs"; F "cont"; E; F "user"] 704728 I64 [D 128 56 (Some (704696, I32))];
   R [F "cfs"; F "cont"; E; F "nice"] 704736 I64 [D 128 56 (Some (704696, I32))];
   R [F "cfs"; F "cont"; E; F "uptime"] 704744 I64 [D 128 56 (Some (704696, I32))];
   R [F "cfs"; F "cont"; E; F "physpages"] 704752 I64 [D 128 56 (Some (704696, I32))];
   R [F "www"; F "accesses"] 711872 I64 [];
   R [F "www"; F "totkbytes"] 711880 I64 [];
   R [F "www"; F "uptime"] 711888 I64 [];
   R [F "www"; F "bworkers"] 711896 I32 [];
   R [F "www"; F "iworkers"] 711900 I32 []].

Definition tstat_2_3 : list row := [
   R [F "gen"; F "tgid"] 0 I32 [];
   R [F "gen"; F "pid"] 4 I32 [];
   R [F "gen"; F "ppid"] 8 I32 [];
   R [F "gen"; F "ruid"] 12 I32 [];
   R [F "gen"; F "euid"] 16 I32 [];
   R [F "gen"; F "suid"] 20 I32 [];
   R [F "gen"; F "fsuid"] 24 I32 [];
   R [F "gen"; F "rgid"] 28 I32 [];
   R [F "gen"; F "egid"] 32 I32 [];
   R [F "gen"; F "sgid"] 36 I32 [];
   R [F "gen"; F "fsgid"] 40 I32 [];
   R [F "gen"; F "nthr"] 44 I32 [];
   R [F "gen"; F "name"] 48 (Text 16) [];
   R [F "gen"; F "isproc"] 64 Chr [];
   R [F "gen"; F "state"] 65 Chr [];
   R [F "gen"; F "excode"] 68 I32 [];
   R [F "gen"; F "btime"] 72 I64 [];
   R [F "gen"; F "elaps"] 80 I64 [];
   R [F "gen"; F "cmdline"] 88 (Text 256) [];
   R [F "gen"; F "nthrslpi"] 344 I32 [];
   R [F "gen"; F "nthrslpu"] 348 I32 [];
   R [F "gen"; F "nthrrun"] 352 I32 [];
   R [F "gen"; F "ctid"] 356 I32 [];
   R [F "gen"; F "vpid"] 360 I32 [];
   R [F "gen"; F "wasinactive"] 364 I32 [];
   R [F "gen"; F "container"] 368 (Text 16) [];
   R [F "cpu"; F "utime"] 384 I64 [];
   R [F "cpu"; F "stime"] 392 I64 [];
   R [F "cpu"; F "nice"] 400 I32 [];
   R [F "cpu"; F "prio"] 404 I32 [];
   R [F "cpu"; F "rtprio"] 408 I32 [];
   R [F "cpu"; F "policy"] 412 I32 [];
   R [F "cpu"; F "curcpu"] 416 I32 [];
   R [F "cpu"; F "sleepavg"] 420 I32 [];
   R [F "cpu"; F "ifuture"; E] 424 I32 [D 4 4 None];
   R [F "cpu"; F "cfuture"; E] 440 I64 [D 4 8 None];
   R [F "dsk"; F "rio"] 472 I64 [];
   R [F "dsk"; F "rsz"] 480 I64 [];
   R [F "dsk"; F "wio"] 488 I64 [];
   R [F "dsk"; F "wsz"] 496 I64 [];
   R [F "dsk"; F "cwsz"] 504 I64 [];
   R [F "dsk"; F "cfuture"; E] 512 I64 [D 4 8 None];
   R [F "mem"; F "minflt"] 544 I64 [];
   R [F "mem"; F "majflt"] 552 I64 [];
   R [F "mem"; F "vexec"] 560 I64 [];
   R [F "mem"; F "vmem"] 568 I64 [];
   R [F "mem"; F "rmem"] 576 I64 [];
   R [F "mem"; F "pmem"] 584 I64 [];
   R [F "mem"; F "vgrow"] 592 I64 [];
   R [F "mem"; F "rgrow"] 600 I64 [];
   R [F "mem"; F "vdata"] 608 I64 [];
   R [F "mem"; F "vstack"] 616 I64 [];
   R [F "mem"; F "vlibs"] 624 I64 [];
   R [F "mem"; F "vswap"] 632 I64 [];
   R [F "mem"; F "cfuture"; E] 640 I64 [D 4 8 None];
   R [F "net"; F "tcpsnd"] 672 I64 [];
   R [F "net"; F "tcpssz"] 680 I64 [];
   R [F "net"; F "tcprcv"] 688 I64 [];
   R [F "net"; F "tcprsz"] 696 I64 [];
   R [F "net"; F "udpsnd"] 704 I64 [];
   R [F "net"; F "udpssz"] 712 I64 [];
   R [F "net"; F "udprcv"] 720 I64 [];
   R [F "net"; F "udprsz"] 728 I64 [];
   R [F "net"; F "avail1"] 736 I64 [];
   R [F "net"; F "avail2"] 744 I64 [];
   R [F "net"; F "cfuture"; E] 752 I64 [D 4 8 None]].

Definition sstat_2_4 : list row := [
   R [F "cpu"; F "nrcpu"] 0 I64 [];
   R [F "cpu"; F "devint"] 8 I64 [];
   R [F "cpu"; F "csw"] 16 I64 [];
   R [F "cpu"; F "nprocs"] 24 I64 [];
   R [F "cpu"; F "lavg1"] 32 F32 [];
   R [F "cpu"; F "lavg5"] 36 F32 [];
   R [F "cpu"; F "lavg15"] 40 F32 [];
   R [F "cpu"; F "cfuture"; E] 48 I64 [D 4 8 None];
   R [F "cpu"; F "all"; F "cpunr"] 80 I32 [];
   R [F "cpu"; F "all"; F "stime"] 88 I64 [];
   R [F "cpu"; F "all"; F "utime"] 96 I64 [];
   R [F "cpu"; F "all"; F "ntime"] 104 I64 [];
   R [F "cpu"; F "all"; F "itime"] 112 I64 [];
   R [F "cpu"; F "all"; F "wtime"] 120 I64 [];
   R [F "cpu"; F "all"; F "Itime"] 128 I64 [];
   R [F "cpu"; F "all"; F "Stime"] 136 I64 [];
   R [F "cpu"; F "all"; F "steal"] 144 I64 [];
   R [F "cpu"; F "all"; F "guest"] 152 I64 [];
   R [F "cpu"; F "all"; F "freqcnt"; F "maxfreq"] 160 I64 [];
   R [F "cpu"; F "all"; F "freqcnt"; F "cnt"] 168 I64 [];
   R [F "cpu"; F "all"; F "freqcnt"; F "ticks"] 176 I64 [];
   R [F "cpu"; F "all"; F "instr"] 184 I64 [];
   R [F "cpu"; F "all"; F "cycle"] 192 I64 [];
   R [F "cpu"; F "all"; F "cfuture"; E] 200 I64 [D 2 8 None];
   R [F "cpu"; F "cpu"; E; F "cpunr"] 216 I32 [D 2048 136 (Some (0, I64))];
   R [F "cpu"; F "cpu"; E; F "stime"] 224 I64 [D 2048 136 (Some (0, I64))];
   R [F "cpu"; F "cpu"; E; F "utime"] 232 I64 [D 2048 136 (Some (0, I64))];
   R [F "cpu"; F "cpu"; E; F "ntime"] 240 I64 [D 2048 136 (Some (0, I64))];
   R [F "cpu"; F "cpu"; E; F "itime"] 248 I64 [D 2048 136 (Some (0, I64))];
   R [F "cpu"; F "cpu"; E; F "wtime"] 256 I64 [D 2048 136 (Some (0, I64))];
   R [F "cpu"; F "cpu"; E; F "Itime"] 264 I64 [D 2048 136 (Some (0, I64))];
   R [F "cpu"; F "cpu"; E; F "Stime"] 272 I64 [D 2048 136 (Some (0, I64))];
   R [F "cpu"; F "cpu"; E; F "steal"] 280 I64 [D 2048 136 (Some (0, I64))];
   R [F "cpu"; F "cpu"; E; F "guest"] 288 I64 [D 2048 136 (Some (0, I64))];
   R [F "cpu"; F "cpu"; E; F "freqcnt"; F "maxfreq"] 296 I64 [D 2048 136 (Some (0, I64))];
   R [F "cpu"; F "cpu"; E; F "freqcnt"; F "cnt"] 304 I64 [D 2048 136 (Some (0, I64))];
   R [F "cpu"; F "cpu"; E; F "freqcnt"; F "ticks"] 312 I64 [D 2048 136 (Some (0, I64))];
   R [F "cpu"; F "cpu"; E; F "instr"] 320 I64 [D 2048 136 (Some (0, I64))];
   R [F "cpu"; F "cpu"; E; F "cycle"] 328 I64 [D 2048 136 (Some (0, I64))];
   R [F "cpu"; F "cpu"; E; F "cfuture"; E] 336 I64 [D 2048 136 (Some (0, I64)); D 2 8 None];
   R [F "mem"; F "physmem"] 278744 I64 [];
   R [F "mem"; F "freemem"] 278752 I64 [];
   R [F "mem"; F "buffermem"] 278760 I64 [];
   R [F "mem"; F "slabmem"] 278768 I64 [];
   R [F "mem"; F "cachemem"] 278776 I64 [];
   R [F "mem"; F "cachedrt"] 278784 I64 [];
   R [F "mem"; F "totswap"] 278792 I64 [];
   R [F "mem"; F "freeswap"] 278800 I64 [];
   R [F "mem"; F "pgscans"] 278808 I64 [];
   R [F "mem"; F "pgsteal"] 278816 I64 [];
   R [F "mem"; F "allocstall"] 278824 I64 [];
   R [F "mem"; F "swouts"] 278832 I64 [];
   R [F "mem"; F "swins"] 278840 I64 [];
   R [F "mem"; F "commitlim"] 278848 I64 [];
   R [F "mem"; F "committed"] 278856 I64 [];
   R [F "mem"; F "shmem"] 278864 I64 [];
   R [F "mem"; F "shmrss"] 278872 I64 [];
   R [F "mem"; F "shmswp"] 278880 I64 [];
   R [F "mem"; F "slabreclaim"] 278888 I64 [];
   R [F "mem"; F "tothugepage"] 278896 I64 [];
   R [F "mem"; F "freehugepage"] 278904 I64 [];
   R [F "mem"; F "hugepagesz"] 278912 I64 [];
   R [F "mem"; F "vmwballoon"] 278920 I64 [];
   R [F "mem"; F "cfuture"; E] 278928 I64 [D 8 8 None];
   R [F "net"; F "ipv4"; F "Forwarding"] 278992 I64 [];
   R [F "net"; F "ipv4"; F "DefaultTTL"] 279000 I64 [];
   R [F "net"; F "ipv4"; F "InReceives"] 279008 I64 [];
   R [F "net"; F "ipv4"; F "InHdrErrors"] 279016 I64 [];
   R [F "net"; F "ipv4"; F "InAddrErrors"] 279024 I64 [];
   R [F "net"; F "ipv4"; F "ForwDatagrams"] 279032 I64 [];
   R [F "net"; F "ipv4"; F "InUnknownProtos"] 279040 I64 [];
   R [F "net"; F "ipv4"; F "InDiscards"] 279048 I64 [];
   R [F "net"; F "ipv4"; F "InDelivers"] 279056 I64 [];
   R [F "net"; F "ipv4"; F "OutRequests"] 279064 I64 [];
   R [F "net"; F "ipv4"; F "OutDiscards"] 279072 I64 [];
   R [F "net"; F "ipv4"; F "OutNoRoutes"] 279080 I64 [];
   R [F "net"; F "ipv4"; F "ReasmTimeout"] 279088 I64 [];
   R [F "net"; F "ipv4"; F "ReasmReqds"] 279096 I64 [];
   R [F "net"; F "ipv4"; F "ReasmOKs"] 279104 I64 [];
   R [F "net"; F "ipv4"; F "ReasmFails"] 279112 I64 [];
   R [F "net"; F "ipv4"; F "FragOKs"] 279120 I64 [];
   R [F "net"; F "ipv4"; F "FragFails"] 279128 I64 [];
   R [F "net"; F "ipv4"; F "FragCreates"] 279136 I64 [];
   R [F "net"; F "icmpv4"; F "InMsgs"] 279144 I64 [];
   R [F "net"; F "icmpv4"; F "InErrors"] 279152 I64 [];
   R [F "net"; F "icmpv4"; F "InDestUnreachs"] 279160 I64 [];
   R [F "net"; F "icmpv4"; F "InTimeExcds"] 279168 I64 [];
   R [F "net"; F "icmpv4"; F "InParmProbs"] 279176 I64 [];
   R [F "net"; F "icmpv4"; F "InSrcQuenchs"] 279184 I64 [];
   R [F "net"; F "icmpv4"; F "InRedirects"] 279192 I64 [];
   R [F "net"; F "icmpv4"; F "InEchos"] 279200 I64 [];
   R [F "net"; F "icmpv4"; F "InEchoReps"] 279208 I64 [];
   R [F "net"; F "icmpv4"; F "InTimestamps"] 279216 I64 [];
   R [F "net"; F "icmpv4"; F "InTimestampReps"] 279224 I64 [];
   R [F "net"; F "icmpv4"; F "InAddrMasks"] 279232 I64 [];
   R [F "net"; F "icmpv4"; F "InAddrMaskReps"] 279240 I64 [];
   R [F "net"; F "icmpv4"; F "OutMsgs"] 279248 I64 [];
   R [F "net"; F "icmpv4"; F "OutErrors"] 279256 I64 [];
   R [F "net"; F "icmpv4"; F "OutDestUnreachs"] 279264 I64 [];
   R [F "net"; F "icmpv4"; F "OutTimeExcds"] 279272 I64 [];
   R [F "net"; F "icmpv4"; F "OutParmProbs"] 279280 I64 [];
   R [F "net"; F "icmpv4"; F "OutSrcQuenchs"] 279288 I64 [];
   R [F "net"; F "icmpv4"; F "OutRedirects"] 279296 I64 [];
   R [F "net"; F "icmpv4"; F "OutEchos"] 279304 I64 [];
   R [F "net"; F "icmpv4"; F "OutEchoReps"] 279312 I64 [];
   R [F "net"; F "icmpv4"; F "OutTimestamps"] 279320 I64 [];
   R [F "net"; F "icmpv4"; F "OutTimestampReps"] 279328 I64 [];
   R [F "net"; F "icmpv4"; F "OutAddrMasks"] 279336 I64 [];
   R [F "net"; F "icmpv4"; F "OutAddrMaskReps"] 279344 I64 [];
   R [F "net"; F "udpv4"; F "InDatagrams"] 279352 I64 [];
   R [F "net"; F "udpv4"; F "NoPorts"] 279360 I64 [];
   R [F "net"; F "udpv4"; F "InErrors"] 279368 I64 [];
   R [F "net"; F "udpv4"; F "OutDatagrams"] 279376 I64 [];
   R [F "net"; F "ipv6"; F "Ip6InReceives"] 279384 I64 [];
   R [F "net"; F "ipv6"; F "Ip6InHdrErrors"] 279392 I64 [];
   R [F "net"; F "ipv6"; F "Ip6InTooBigErrors"] 279400 I64 [];
   R [F "net"; F "ipv6"; F "Ip6InNoRoutes"] 279408 I64 [];
   R [F "net"; F "ipv6"; F "Ip6InAddrErrors"] 279416 I64 [];
   R [F "net"; F "ipv6"; F "Ip6InUnknownProtos"] 279424 I64 [];
   R [F "net"; F "ipv6"; F "Ip6InTruncatedPkts"] 279432 I64 [];
   R [F "net"; F "ipv6"; F "Ip6InDiscards"] 279440 I64 [];
   R [F "net"; F "ipv6"; F "Ip6InDelivers"] 279448 I64 [];
   R [F "net"; F "ipv6"; F "Ip6OutForwDatagrams"] 279456 I64 [];
   R [F "net"; F "ipv6"; F "Ip6OutRequests"] 279464 I64 [];
   R [F "net"; F "ipv6"; F "Ip6OutDiscards"] 279472 I64 [];
   R [F "net"; F "ipv6"; F "Ip6OutNoRoutes"] 279480 I64 [];
   R [F "net"; F "ipv6"; F "Ip6ReasmTimeout"] 279488 I64 [];
   R [F "net"; F "ipv6"; F "Ip6ReasmReqds"] 279496 I64 [];
   R [F "net"; F "ipv6"; F "Ip6ReasmOKs"] 279504 I64 [];
   R [F "net"; F "ipv6"; F "Ip6ReasmFails"] 279512 I64 [];
   R [F "net"; F "ipv6"; F "Ip6FragOKs"] 279520 I64 [];
   R [F "net"; F "ipv6"; F "Ip6FragFails"] 279528 I64 [];
   R [F "net"; F "ipv6"; F "Ip6FragCreates"] 279536 I64 [];
   R [F "net"; F "ipv6"; F "Ip6InMcastPkts"] 279544 I64 [];
   R [F "net"; F "ipv6"; F "Ip6OutMcastPkts"] 279552 I64 [];
   R [F "net"; F "icmpv6"; F "Icmp6InMsgs"] 279560 I64 [];
   R [F "net"; F "icmpv6"; F "Icmp6InErrors"] 279568 I64 [];
   R [F "net"; F "icmpv6"; F "Icmp6InDestUnreachs"] 279576 I64 [];
   R [F "net"; F "icmpv6"; F "Icmp6InPktTooBigs"] 279584 I64 [];
   R [F "net"; F "icmpv6"; F "Icmp6InTimeExcds"] 279592 I64 [];
   R [F "net"; F "icmpv6"; F "Icmp6InParmProblems"] 279600 I64 [];
   R [F "net"; F "icmpv6"; F "Icmp6InEchos"] 279608 I64 [];
   R [F "net"; F "icmpv6"; F "Icmp6InEchoReplies"] 279616 I64 [];
   R [F "net"; F "icmpv6"; F "Icmp6InGroupMembQueries"] 279624 I64 [];
   R [F "net"; F "icmpv6"; F "Icmp6InGroupMembResponses"] 279632 I64 [];
   R [F "net"; F "icmpv6"; F "Icmp6InGroupMembReductions"] 279640 I64 [];
   R [F "net"; F "icmpv6"; F "Icmp6InRouterSolicits"] 279648 I64 [];
   R [F "net"; F "icmpv6"; F "Icmp6InRouterAdvertisements"] 279656 I64 [];
   R [F "net"; F "icmpv6"; F "Icmp6InNeighborSolicits"] 279664 I64 [];
   R [F "net"; F "icmpv6"; F "Icmp6InNeighborAdvertisements"] 279672 I64 [];
   R [F "net"; F "icmpv6"; F "Icmp6InRedirects"] 279680 I64 [];
   R [F "net"; F "icmpv6"; F "Icmp6OutMsgs"] 279688 I64 [];
   R [F "net"; F "icmpv6"; F "Icmp6OutDestUnreachs"] 279696 I64 [];
   R [F "net"; F "icmpv6"; F "Icmp6OutPktTooBigs"] 279704 I64 [];
   R [F "net"; F "icmpv6"; F "Icmp6OutTimeExcds"] 279712 I64 [];
   R [F "net"; F "icmpv6"; F "Icmp6OutParmProblems"] 279720 I64 [];
   R [F "net"; F "icmpv6"; F "Icmp6OutEchoReplies"] 279728 I64 [];
   R [F "net"; F "icmpv6"; F "Icmp6OutRouterSolicits"] 279736 I64 [];
   R [F "net"; F "icmpv6"; F "Icmp6OutNeighborSolicits"] 279744 I64 [];
   R [F "net"; F "icmpv6"; F "Icmp6OutNeighborAdvertisements"] 279752 I64 [];
   R [F "net"; F "icmpv6"; F "Icmp6OutRedirects"] 279760 I64 [];
   R [F "net"; F "icmpv6"; F "Icmp6OutGroupMembResponses"] 279768 I64 [];
   R [F "net"; F "icmpv6"; F "Icmp6OutGroupMembReductions"] 279776 I64 [];
   R [F "net"; F "udpv6"; F "Udp6InDatagrams"] 279784 I64 [];
   R [F "net"; F "udpv6"; F "Udp6NoPorts"] 279792 I64 [];
   R [F "net"; F "udpv6"; F "Udp6InErrors"] 279800 I64 [];
   R [F "net"; F "udpv6"; F "Udp6OutDatagrams"] 279808 I64 [];
   R [F "net"; F "tcp"; F "RtoAlgorithm"] 279816 I64 [];
   R [F "net"; F "tcp"; F "RtoMin"] 279824 I64 [];
   R [F "net"; F "tcp"; F "RtoMax"] 279832 I64 [];
   R [F "net"; F "tcp"; F "MaxConn"] 279840 I64 [];
   R [F "net"; F "tcp"; F "ActiveOpens"] 279848 I64 [];
   R [F "net"; F "tcp"; F "PassiveOpens"] 279856 I64 [];
   R [F "net"; F "tcp"; F "AttemptFails"] 279864 I64 [];
   R [F "net"; F "tcp"; F "EstabResets"] 279872 I64 [];
   R [F "net"; F "tcp"; F "CurrEstab"] 279880 I64 [];
   R [F "net"; F "tcp"; F "InSegs"] 279888 I64 [];
   R [F "net"; F "tcp"; F "OutSegs"] 279896 I64 [];
   R [F "net"; F "tcp"; F "RetransSegs"] 279904 I64 [];
   R [F "net"; F "tcp"; F "InErrs"] 279912 I64 [];
   R [F "net"; F "tcp"; F "OutRsts"] 279920 I64 [];
   R [F "intf"; F "nrintf"] 279928 I32 [];
   R [F "intf"; F "intf"; E; F "name"] 279936 (Text 16) [D 128 272 (Some (279928, I32))];
   R [F "intf"; F "intf"; E; F "rbyte"] 279952 I64 [D 128 272 (Some (279928, I32))];
   R [F "intf"; F "intf"; E; F "rpack"] 279960 I64 [D 128 272 (Some (279928, I32))];
   R [F "intf"; F "intf"; E; F "rerrs"] 279968 I64 [D 128 272 (Some (279928, I32))];
   R [F "intf"; F "intf"; E; F "rdrop"] 279976 I64 [D 128 272 (Some (279928, I32))];
   R [F "intf"; F "intf"; E; F "rfifo"] 279984 I64 [D 128 272 (Some (279928, I32))];
   R [F "intf"; F "intf"; E; F "rframe"] 279992 I64 [D 128 272 (Some (279928, I32))];
   R [F "intf"; F "intf"; E; F "rcompr"] 280000 I64 [D 128 272 (Some (279928, I32))];
   R [F "intf"; F "intf"; E; F "rmultic"] 280008 I64 [D 128 272 (Some (279928, I32))];
   R [F "intf"; F "intf"; E; F "rfuture"; E] 280016 I64 [D 128 272 (Some (279928, I32)); D 4 8 None];
   R [F "intf"; F "intf"; E; F "sbyte"] 280048 I64 [D 128 272 (Some (279928, I32))];
   R [F "intf"; F "intf"; E; F "spack"] 280056 I64 [D 128 272 (Some (279928, I32))];
   R [F "intf"; F "intf"; E; F "serrs"] 280064 I64 [D 128 272 (Some (279928, I32))];
   R [F "intf"; F "intf"; E; F "sdrop"] 280072 I64 [D 128 272 (Some (279928, I32))];
   R [F "intf"; F "intf"; E; F "sfifo"] 280080 I64 [D 128 272 (Some (279928, I32))];
   R [F "intf"; F "intf"; E; F "scollis"] 280088 I64 [D 128 272 (Some (279928, I32))];
   R [F "intf"; F "intf"; E; F "scarrier"] 280096 I64 [D 128 272 (Some (279928, I32))];
   R [F "intf"; F "intf"; E; F "scompr"] 280104 I64 [D 128 272 (Some (279928, I32))];
   R [F "intf"; F "intf"; E; F "sfuture"; E] 280112 I64 [D 128 272 (Some (279928, I32)); D 4 8 None];
   R [F "intf"; F "intf"; E; F "type"] 280144 Chr [D 128 272 (Some (279928, I32))];
   R [F "intf"; F "intf"; E; F "speed"] 280152 I64 [D 128 272 (Some (279928, I32))];
   R [F "intf"; F "intf"; E; F "speedp"] 280160 I64 [D 128 272 (Some (279928, I32))];
   R [F "intf"; F "intf"; E; F "duplex"] 280168 Chr [D 128 272 (Some (279928, I32))];
   R [F "intf"; F "intf"; E; F "cfuture"; E] 280176 I64 [D 128 272 (Some (279928, I32)); D 4 8 None];
   R [F "dsk"; F "ndsk"] 314752 I32 [];
   R [F "dsk"; F "nmdd"] 314756 I32 [];
   R [F "dsk"; F "nlvm"] 314760 I32 [];
   R [F "dsk"; F "dsk"; E; F "name"] 314768 (Text 32) [D 1024 112 (Some (314752, I32))];
   R [F "dsk"; F "dsk"; E; F "nread"] 314800 I64 [D 1024 112 (Some (314752, I32))];
   R [F "dsk"; F "dsk"; E; F "nrsect"] 314808 I64 [D 1024 112 (Some (314752, I32))];
   R [F "dsk"; F "dsk"; E; F "nwrite"] 314816 I64 [D 1024 112 (Some (314752, I32))];
   R [F "dsk"; F "dsk"; E; F "nwsect"] 314824 I64 [D 1024 112 (Some (314752, I32))];
   R [F "dsk"; F "dsk"; E; F "io_ms"] 314832 I64 [D 1024 112 (Some (314752, I32))];
   R [F "dsk"; F "dsk"; E; F "avque"] 314840 I64 [D 1024 112 (Some (314752, I32))];
   R [F "dsk"; F "dsk"; E; F "cfuture"; E] 314848 I64 [D 1024 112 (Some (314752, I32)); D 4 8 None];
   R [F "dsk"; F "mdd"; E; F "name"] 429456 (Text 32) [D 256 112 (Some (314756, I32))];
   R [F "dsk"; F "mdd"; E; F "nread"] 429488 I64 [D 256 112 (Some (314756, I32))];
   R [F "dsk"; F "mdd"; E; F "nrsect"] 429496 I64 [D 256 112 (Some (314756, I32))];
   R [F "dsk"; F "mdd"; E; F "nwrite"] 429504 I64 [D 256 112 (Some (314756, I32))];
   R [F "dsk"; F "mdd"; E; F "nwsect"] 429512 I64 [D 256 112 (Some (314756, I32))];
   R [F "dsk"; F "mdd"; E; F "io_ms"] 429520 I64 [D 256 112 (Some (314756, I32))];
   R [F "dsk"; F "mdd"; E; F "avque"] 429528 I64 [D 256 112 (Some (314756, I32))];
   R [F "dsk"; F "mdd"; E; F "cfuture"; E] 429536 I64 [D 256 112 (Some (314756, I32)); D 4 8 None];
   R [F "dsk"; F "lvm"; E; F "name"] 458128 (Text 32) [D 2048 112 (Some (314760, I32))];
   R [F "dsk"; F "lvm"; E; F "nread"] 458160 I64 [D 2048 112 (Some (314760, I32))];
   R [F "dsk"; F "lvm"; E; F "nrsect"] 458168 I64 [D 2048 112 (Some (314760, I32))];
   R [F "dsk"; F "lvm"; E; F "nwrite"] 458176 I64 [D 2048 112 (Some (314760, I32))];
   R [F "dsk"; F "lvm"; E; F "nwsect"] 458184 I64 [D 2048 112 (Some (314760, I32))];
   R [F "dsk"; F "lvm"; E; F "io_ms"] 458192 I64 [D 2048 112 (Some (314760, I32))];
   R [F "dsk"; F "lvm"; E; F "avque"] 458200 I64 [D 2048 112 (Some (314760, I32))];
   R [F "dsk"; F "lvm"; E; F "cfuture"; E] 458208 I64 [D 2048 112 (Some (314760, I32)); D 4 8 None];
   R [F "nfs"; F "server"; F "netcnt"] 687504 I64 [];
   R [F "nfs"; F "server"; F "netudpcnt"] 687512 I64 [];
   R [F "nfs"; F "server"; F "nettcpcnt"] 687520 I64 [];
   R [F "nfs"; F "server"; F "nettcpcon"] 687528 I64 [];
   R [F "nfs"; F "server"; F "rpccnt"] 687536 I64 [];
   R [F "nfs"; F "server"; F "rpcbadfmt"] 687544 I64 [];
   R [F "nfs"; F "server"; F "rpcbadaut"] 687552 I64 [];
   R [F "nfs"; F "server"; F "rpcbadcln"] 687560 I64 [];
   R [F "nfs"; F "server"; F "rpcread"] 687568 I64 [];
   R [F "nfs"; F "server"; F "rpcwrite"] 687576 I64 [];
   R [F "nfs"; F "server"; F "rchits"] 687584 I64 [];
   R [F "nfs"; F "server"; F "rcmiss"] 687592 I64 [];
   R [F "nfs"; F "server"; F "rcnoca"] 687600 I64 [];
   R [F "nfs"; F "server"; F "nrbytes"] 687608 I64 [];
   R [F "nfs"; F "server"; F "nwbytes"] 687616 I64 [];
   R [F "nfs"; F "server"; F "future"; E] 687624 I64 [D 8 8 None];
   R [F "nfs"; F "client"; F "rpccnt"] 687688 I64 [];
   R [F "nfs"; F "client"; F "rpcretrans"] 687696 I64 [];
   R [F "nfs"; F "client"; F "rpcautrefresh"] 687704 I64 [];
   R [F "nfs"; F "client"; F "rpcread"] 687712 I64 [];
   R [F "nfs"; F "client"; F "rpcwrite"] 687720 I64 [];
   R [F "nfs"; F "client"; F "future"; E] 687728 I64 [D 8 8 None];
   R [F "nfs"; F "nfsmounts"; F "nrmounts"] 687792 I32 [];
   R [F "nfs"; F "nfsmounts"; F "nfsmnt"; E; F "mountdev"] 687800 (Text 128) [D 64 264 (Some (687792, I32))];
   R [F "nfs"; F "nfsmounts"; F "nfsmnt"; E; F "age"] 687928 I64 [D 64 264 (Some (687792, I32))];
   R [F "nfs"; F "nfsmounts"; F "nfsmnt"; E; F "bytesread"] 687936 I64 [D 64 264 (Some (687792, I32))];
   R [F "nfs"; F "nfsmounts"; F "nfsmnt"; E; F "byteswrite"] 687944 I64 [D 64 264 (Some (687792, I32))];
   R [F "nfs"; F "nfsmounts"; F "nfsmnt"; E; F "bytesdread"] 687952 I64 [D 64 264 (Some (687792, I32))];
   R [F "nfs"; F "nfsmounts"; F "nfsmnt"; E; F "bytesdwrite"] 687960 I64 [D 64 264 (Some (687792, I32))];
   R [F "nfs"; F "nfsmounts"; F "nfsmnt"; E; F "bytestotread"] 687968 I64 [D 64 264 (Some (687792, I32))];
   R [F "nfs"; F "nfsmounts"; F "nfsmnt"; E; F "bytestotwrite"] 687976 I64 [D 64 264 (Some (687792, I32))];
   R [F "nfs"; F "nfsmounts"; F "nfsmnt"; E; F "pagesmread"] 687984 I64 [D 64 264 (Some (687792, I32))];
   R [F "nfs"; F "nfsmounts"; F "nfsmnt"; E; F "pagesmwrite"] 687992 I64 [D 64 264 (Some (687792, I32))];
   R [F "nfs"; F "nfsmounts"; F "nfsmnt"; E; F "future"; E] 688000 I64 [D 64 264 (Some (687792, I32)); D 8 8 None];
   R [F "cfs"; F "nrcontainer"] 704696 I32 [];
   R [F "cfs"; F "cont"; E; F "ctid"] 704704 U64 [D 128 56 (Some (704696, I32))];
   R [F "cfs"; F "cont"; E; F "numproc"] 704712 U64 [D 128 56 (Some (704696, I32))];
   R [F "cfs"; F "cont"; E; F "system"] 704720 I64 [D 128 56 (Some (704696, I32))];
   R [F "cfs"; F "cont"; E; F "user"] 704728 I64 [D 128 56 (Some (704696, I32))];
   R [F "cfs"; F "cont"; E; F "nice"] 704736 I64 [D 128 56 (Some (704696, I32))];
   R [F "cfs"; F "cont"; E; F "uptime"] 704744 I64 [D 128 56 (Some (704696, I32))];
   R [F "cfs"; F "cont"; E; F "physpages"] 704752 I64 [D 128 56 (Some (704696, I32))];
   R [F "psi"; F "present"] 711872 Chr [];
   R [F "psi"; F "future"] 711873 (Text 3) [];
   R [F "psi"; F "cpusome"; F "avg10"] 711880 F32 [];
   R [F "psi"; F "cpusome"; F "avg60"] 711884 F32 [];
   R [F "psi"; F "cpusome"; F "avg300"] 711888 F32 [];
   R [F "psi"; F "cpusome"; F "total"] 711896 I64 [];
   R [F "psi"; F "memsome"; F "avg10"] 711904 F32 [];
   R [F "psi"; F "memsome"; F "avg60"] 711908 F32 [];
   R [F "psi"; F "memsome"; F "avg300"] 711912 F32 [];
   R [F "psi"; F "memsome"; F "total"] 711920 I64 [];
   R [F "psi"; F "memfull"; F "avg10"] 711928 F32 [];
   R [F "psi"; F "memfull"; F "avg60"] 711932 F32 [];
   R [F "psi"; F "memfull"; F "avg300"] 711936 F32 [];
   R [F "psi"; F "memfull"; F "total"] 711944 I64 [];
   R [F "psi"; F "iosome"; F "avg10"] 711952 F32 [];
   R [F "psi"; F "iosome"; F "avg60"] 711956 F32 [];
   R [F "psi"; F "iosome"; F "avg300"] 711960 F32 [];
   R [F "psi"; F "iosome"; F "total"] 711968 I64 [];
   R [F "psi"; F "iofull"; F "avg10"] 711976 F32 [];
   R [F "psi"; F "iofull"; F "avg60"] 711980 F32 [];
   R [F "psi"; F "iofull"; F "avg300"] 711984 F32 [];
   R [F "psi"; F "iofull"; F "total"] 711992 I64 [];
   R [F "gpu"; F "nrgpus"] 712000 I32 [];
   R [F "gpu"; F "gpu"; E; F "taskstats"] 712008 Chr [D 32 88 (Some (712000, I32))];
   R [F "gpu"; F "gpu"; E; F "nrprocs"] 712009 U8 [D 32 88 (Some (712000, I32))];
   R [F "gpu"; F "gpu"; E; F "type"] 712010 (Text 13) [D 32 88 (Some (712000, I32))];
   R [F "gpu"; F "gpu"; E; F "busid"] 712023 (Text 13) [D 32 88 (Some (712000, I32))];
   R [F "gpu"; F "gpu"; E; F "gpunr"] 712036 I32 [D 32 88 (Some (712000, I32))];
   R [F "gpu"; F "gpu"; E; F "gpupercnow"] 712040 I32 [D 32 88 (Some (712000, I32))];
   R [F "gpu"; F "gpu"; E; F "mempercnow"] 712044 I32 [D 32 88 (Some (712000, I32))];
   R [F "gpu"; F "gpu"; E; F "memtotnow"] 712048 I64 [D 32 88 (Some (712000, I32))];
   R [F "gpu"; F "gpu"; E; F "memusenow"] 712056 I64 [D 32 88 (Some (712000, I32))];
   R [F "gpu"; F "gpu"; E; F "samples"] 712064 I64 [D 32 88 (Some (712000, I32))];
   R [F "gpu"; F "gpu"; E; F "gpuperccum"] 712072 I64 [D 32 88 (Some (712000, I32))];
   R [F "gpu"; F "gpu"; E; F "memperccum"] 712080 I64 [D 32 88 (Some (712000, I32))];
   R [F "gpu"; F "gpu"; E; F "memusecum"] 712088 I64 [D 32 88 (Some (712000, I32))];
   R [F "ifb"; F "nrports"] 714824 I32 [];
   R [F "ifb"; F "ifb"; E; F "ibname"] 714832 (Text 12) [D 32 56 (Some (714824, I32))];
   R [F "ifb"; F "ifb"; E; F "portnr"] 714844 I16 [D 32 56 (Some (714824, I32))];
   R [F "ifb"; F "ifb"; E; F "lanes"] 714846 I16 [D 32 56 (Some (714824, I32))];
   R [F "ifb"; F "ifb"; E; F "rate"] 714848 I64 [D 32 56 (Some (714824, I32))];
   R [F "ifb"; F "ifb"; E; F "rcvb"] 714856 I64 [D 32 56 (Some (714824, I32))];
   R [F "ifb"; F "ifb"; E; F "sndb"] 714864 I64 [D 32 56 (Some (714824, I32))];
   R [F "ifb"; F "ifb"; E; F "rcvp"] 714872 I64 [D 32 56 (Some (714824, I32))];
   R [F "ifb"; F "ifb"; E; F "sndp"] 714880 I64 [D 32 56 (Some (714824, I32))];
   R [F "www"; F "accesses"] 716624 I64 [];
   R [F "www"; F "totkbytes"] 716632 I64 [];
   R [F "www"; F "uptime"] 716640 I64 [];
   R [F "www"; F "bworkers"] 716648 I32 [];
   R [F "www"; F "iworkers"] 716652 I32 []].

Definition tstat_2_4 : list row := [
   R [F "gen"; F "tgid"] 0 I32 [];
   R [F "gen"; F "pid"] 4 I32 [];
   R [F "gen"; F "ppid"] 8 I32 [];
   R [F "gen"; F "ruid"] 12 I32 [];
   R [F "gen"; F "euid"] 16 I32 [];
   R [F "gen"; F "suid"] 20 I32 [];
   R [F "gen"; F "fsuid"] 24 I32 [];
   R [F "gen"; F "rgid"] 28 I32 [];
   R [F "gen"; F "egid"] 32 I32 [];
   R [F "gen"; F "sgid"] 36 I32 [];
   R [F "gen"; F "fsgid"] 40 I32 [];
   R [F "gen"; F "nthr"] 44 I32 [];
   R [F "gen"; F "name"] 48 (Text 16) [];
   R [F "gen"; F "isproc"] 64 Chr [];
   R [F "gen"; F "state"] 65 Chr [];
   R [F "gen"; F "excode"] 68 I32 [];
   R [F "gen"; F "btime"] 72 I64 [];
   R [F "gen"; F "elaps"] 80 I64 [];
   R [F "gen"; F "cmdline"] 88 (Text 256) [];
   R [F "gen"; F "nthrslpi"] 344 I32 [];
   R [F "gen"; F "nthrslpu"] 348 I32 [];
   R [F "gen"; F "nthrrun"] 352 I32 [];
   R [F "gen"; F "ctid"] 356 I32 [];
   R [F "gen"; F "vpid"] 360 I32 [];
   R [F "gen"; F "wasinactive"] 364 I32 [];
   R [F "gen"; F "container"] 368 (Text 16) [];
   R [F "cpu"; F "utime"] 384 I64 [];
   R [F "cpu"; F "stime"] 392 I64 [];
   R [F "cpu"; F "nice"] 400 I32 [];
   R [F "cpu"; F "prio"] 404 I32 [];
   R [F "cpu"; F "rtprio"] 408 I32 [];
   R [F "cpu"; F "policy"] 412 I32 [];
   R [F "cpu"; F "curcpu"] 416 I32 [];
   R [F "cpu"; F "sleepavg"] 420 I32 [];
   R [F "cpu"; F "ifuture"; E] 424 I32 [D 4 4 None];
   R [F "cpu"; F "cfuture"; E] 440 I64 [D 4 8 None];
   R [F "dsk"; F "rio"] 472 I64 [];
   R [F "dsk"; F "rsz"] 480 I64 [];
   R [F "dsk"; F "wio"] 488 I64 [];
   R [F "dsk"; F "wsz"] 496 I64 [];
   R [F "dsk"; F "cwsz"] 504 I64 [];
   R [F "dsk"; F "cfuture"; E] 512 I64 [D 4 8 None];
   R [F "mem"; F "minflt"] 544 I64 [];
   R [F "mem"; F "majflt"] 552 I64 [];
   R [F "mem"; F "vexec"] 560 I64 [];
   R [F "mem"; F "vmem"] 568 I64 [];
   R [F "mem"; F "rmem"] 576 I64 [];
   R [F "mem"; F "pmem"] 584 I64 [];
   R [F "mem"; F "vgrow"] 592 I64 [];
   R [F "mem"; F "rgrow"] 600 I64 [];
   R [F "mem"; F "vdata"] 608 I64 [];
   R [F "mem"; F "vstack"] 616 I64 [];
   R [F "mem"; F "vlibs"] 624 I64 [];
   R [F "mem"; F "vswap"] 632 I64 [];
   R [F "mem"; F "cfuture"; E] 640 I64 [D 4 8 None];
   R [F "net"; F "tcpsnd"] 672 I64 [];
   R [F "net"; F "tcpssz"] 680 I64 [];
   R [F "net"; F "tcprcv"] 688 I64 [];
   R [F "net"; F "tcprsz"] 696 I64 [];
   R [F "net"; F "udpsnd"] 704 I64 [];
   R [F "net"; F "udpssz"] 712 I64 [];
   R [F "net"; F "udprcv"] 720 I64 [];
   R [F "net"; F "udprsz"] 728 I64 [];
   R [F "net"; F "avail1"] 736 I64 [];
   R [F "net"; F "avail2"] 744 I64 [];
   R [F "net"; F "cfuture"; E] 752 I64 [D 4 8 None];
   R [F "gpu"; F "state"] 784 Chr [];
   R [F "gpu"; F "cfuture"] 785 (Text 3) [];
   R [F "gpu"; F "nrgpus"] 788 I16 [];
   R [F "gpu"; F "gpulist"] 792 I32 [];
   R [F "gpu"; F "gpubusy"] 796 I32 [];
   R [F "gpu"; F "membusy"] 800 I32 [];
   R [F "gpu"; F "timems"] 808 I64 [];
   R [F "gpu"; F "memnow"] 816 I64 [];
   R [F "gpu"; F "memcum"] 824 I64 [];
   R [F "gpu"; F "sample"] 832 I64 []].

Definition sstat_2_6 : list row := [
   R [F "cpu"; F "nrcpu"] 0 I64 [];
   R [F "cpu"; F "devint"] 8 I64 [];
   R [F "cpu"; F "csw"] 16 I64 [];
   R [F "cpu"; F "nprocs"] 24 I64 [];
   R [F "cpu"; F "lavg1"] 32 F32 [];
   R [F "cpu"; F "lavg5"] 36 F32 [];
   R [F "cpu"; F "lavg15"] 40 F32 [];
   R [F "cpu"; F "cfuture"; E] 48 I64 [D 4 8 None];
   R [F "cpu"; F "all"; F "cpunr"] 80 I32 [];
   R [F "cpu"; F "all"; F "stime"] 88 I64 [];
   R [F "cpu"; F "all"; F "utime"] 96 I64 [];
   R [F "cpu"; F "all"; F "ntime"] 104 I64 [];
   R [F "cpu"; F "all"; F "itime"] 112 I64 [];
   R [F "cpu"; F "all"; F "wtime"] 120 I64 [];
   R [F "cpu"; F "all"; F "Itime"] 128 I64 [];
   R [F "cpu"; F "all"; F "Stime"] 136 I64 [];
   R [F "cpu"; F "all"; F "steal"] 144 I64 [];
   R [F "cpu"; F "all"; F "guest"] 152 I64 [];
   R [F "cpu"; F "all"; F "freqcnt"; F "maxfreq"] 160 I64 [];
   R [F "cpu"; F "all"; F "freqcnt"; F "cnt"] 168 I64 [];
   R [F "cpu"; F "all"; F "freqcnt"; F "ticks"] 176 I64 [];
   R [F "cpu"; F "all"; F "instr"] 184 I64 [];
   R [F "cpu"; F "all"; F "cycle"] 192 I64 [];
   R [F "cpu"; F "all"; F "cfuture"; E] 200 I64 [D 2 8 None];
   R [F "cpu"; F "cpu"; E; F "cpunr"] 216 I32 [D 2048 136 (Some (0, I64))];
   R [F "cpu"; F "cpu"; E; F "stime"] 224 I64 [D 2048 136 (Some (0, I64))];
   R [F "cpu"; F "cpu"; E; F "utime"] 232 I64 [D 2048 136 (Some (0, I64))];
   R [F "cpu"; F "cpu"; E; F "ntime"] 240 I64 [D 2048 136 (Some (0, I64))];
   R [F "cpu"; F "cpu"; E; F "itime"] 248 I64 [D 2048 136 (Some (0, I64))];
   R [F "cpu"; F "cpu"; E; F "wtime"] 256 I64 [D 2048 136 (Some (0, I64))];
   R [F "cpu"; F "cpu"; E; F "Itime"] 264 I64 [D 2048 136 (Some (0, I64))];
   R [F "cpu"; F "cpu"; E; F "Stime"] 272 I64 [D 2048 136 (Some (0, I64))];
   R [F "cpu"; F "cpu"; E; F "steal"] 280 I64 [D 2048 136 (Some (0, I64))];
   R [F "cpu"; F "cpu"; E; F "guest"] 288 I64 [D 2048 136 (Some (0, I64))];
   R [F "cpu"; F "cpu"; E; F "freqcnt"; F "maxfreq"] 296 I64 [D 2048 136 (Some (0, I64))];
   R [F "cpu"; F "cpu"; E; F "freqcnt"; F "cnt"] 304 I64 [D 2048 136 (Some (0, I64))];
   R [F "cpu"; F "cpu"; E; F "freqcnt"; F "ticks"] 312 I64 [D 2048 136 (Some (0, I64))];
   R [F "cpu"; F "cpu"; E; F "instr"] 320 I64 [D 2048 136 (Some (0, I64))];
   R [F "cpu"; F "cpu"; E; F "cycle"] 328 I64 [D 2048 136 (Some (0, I64))];
   R [F "cpu"; F "cpu"; E; F "cfuture"; E] 336 I64 [D 2048 136 (Some (0, I64)); D 2 8 None];
   R [F "mem"; F "physmem"] 278744 I64 [];
   R [F "mem"; F "freemem"] 278752 I64 [];
   R [F "mem"; F "buffermem"] 278760 I64 [];
   R [F "mem"; F "slabmem"] 278768 I64 [];
   R [F "mem"; F "cachemem"] 278776 I64 [];
   R [F "mem"; F "cachedrt"] 278784 I64 [];
   R [F "mem"; F "totswap"] 278792 I64 [];
   R [F "mem"; F "freeswap"] 278800 I64 [];
   R [F "mem"; F "pgscans"] 278808 I64 [];
   R [F "mem"; F "pgsteal"] 278816 I64 [];
   R [F "mem"; F "allocstall"] 278824 I64 [];
   R [F "mem"; F "swouts"] 278832 I64 [];
   R [F "mem"; F "swins"] 278840 I64 [];
   R [F "mem"; F "commitlim"] 278848 I64 [];
   R [F "mem"; F "committed"] 278856 I64 [];
   R [F "mem"; F "shmem"] 278864 I64 [];
   R [F "mem"; F "shmrss"] 278872 I64 [];
   R [F "mem"; F "shmswp"] 278880 I64 [];
   R [F "mem"; F "slabreclaim"] 278888 I64 [];
   R [F "mem"; F "tothugepage"] 278896 I64 [];
   R [F "mem"; F "freehugepage"] 278904 I64 [];
   R [F "mem"; F "hugepagesz"] 278912 I64 [];
   R [F "mem"; F "vmwballoon"] 278920 I64 [];
   R [F "mem"; F "zfsarcsize"] 278928 I64 [];
   R [F "mem"; F "swapcached"] 278936 I64 [];
   R [F "mem"; F "cfuture"; E] 278944 I64 [D 6 8 None];
   R [F "net"; F "ipv4"; F "Forwarding"] 278992 I64 [];
   R [F "net"; F "ipv4"; F "DefaultTTL"] 279000 I64 [];
   R [F "net"; F "ipv4"; F "InReceives"] 279008 I64 [];
   R [F "net"; F "ipv4"; F "InHdrErrors"] 279016 I64 [];
   R [F "net"; F "ipv4"; F "InAddrErrors"] 279024 I64 [];
   R [F "net"; F "ipv4"; F "ForwDatagrams"] 279032 I64 [];
   R [F "net"; F "ipv4"; F "InUnknownProtos"] 279040 I64 [];
   R [F "net"; F "ipv4"; F "InDiscards"] 279048 I64 [];
   R [F "net"; F "ipv4"; F "InDelivers"] 279056 I64 [];
   R [F "net"; F "ipv4"; F "OutRequests"] 279064 I64 [];
   R [F "net"; F "ipv4"; F "OutDiscards"] 279072 I64 [];
   R [F "net"; F "ipv4"; F "OutNoRoutes"] 279080 I64 [];
   R [F "net"; F "ipv4"; F "ReasmTimeout"] 279088 I64 [];
   R [F "net"; F "ipv4"; F "ReasmReqds"] 279096 I64 [];
   R [F "net"; F "ipv4"; F "ReasmOKs"] 279104 I64 [];
   R [F "net"; F "ipv4"; F "ReasmFails"] 279112 I64 [];
   R [F "net"; F "ipv4"; F "FragOKs"] 279120 I64 [];
   R [F "net"; F "ipv4"; F "FragFails"] 279128 I64 [];
   R [F "net"; F "ipv4"; F "FragCreates"] 279136 I64 [];
   R [F "net"; F "icmpv4"; F "InMsgs"] 279144 I64 [];
   R [F "net"; F "icmpv4"; F "InErrors"] 279152 I64 [];
   R [F "net"; F "icmpv4"; F "InDestUnreachs"] 279160 I64 [];
   R [F "net"; F "icmpv4"; F "InTimeExcds"] 279168 I64 [];
   R [F "net"; F "icmpv4"; F "InParmProbs"] 279176 I64 [];
   R [F "net"; F "icmpv4"; F "InSrcQuenchs"] 279184 I64 [];
   R [F "net"; F "icmpv4"; F "InRedirects"] 279192 I64 [];
   R [F "net"; F "icmpv4"; F "InEchos"] 279200 I64 [];
   R [F "net"; F "icmpv4"; F "InEchoReps"] 279208 I64 [];
   R [F "net"; F "icmpv4"; F "InTimestamps"] 279216 I64 [];
   R [F "net"; F "icmpv4"; F "InTimestampReps"] 279224 I64 [];
   R [F "net"; F "icmpv4"; F "InAddrMasks"] 279232 I64 [];
   R [F "net"; F "icmpv4"; F "InAddrMaskReps"] 279240 I64 [];
   R [F "net"; F "icmpv4"; F "OutMsgs"] 279248 I64 [];
   R [F "net"; F "icmpv4"; F "OutErrors"] 279256 I64 [];
   R [F "net"; F "icmpv4"; F "OutDestUnreachs"] 279264 I64 [];
   R [F "net"; F "icmpv4"; F "OutTimeExcds"] 279272 I64 [];
   R [F "net"; F "icmpv4"; F "OutParmProbs"] 279280 I64 [];
   R [F "net"; F "icmpv4"; F "OutSrcQuenchs"] 279288 I64 [];
   R [F "net"; F "icmpv4"; F "OutRedirects"] 279296 I64 [];
   R [F "net"; F "icmpv4"; F "OutEchos"] 279304 I64 [];
   R [F "net"; F "icmpv4"; F "OutEchoReps"] 279312 I64 [];
   R [F "net"; F "icmpv4"; F "OutTimestamps"] 279320 I64 [];
   R [F "net"; F "icmpv4"; F "OutTimestampReps"] 279328 I64 [];
   R [F "net"; F "icmpv4"; F "OutAddrMasks"] 279336 I64 [];
   R [F "net"; F "icmpv4"; F "OutAddrMaskReps"] 279344 I64 [];
   R [F "net"; F "udpv4"; F "InDatagrams"] 279352 I64 [];
   R [F "net"; F "udpv4"; F "NoPorts"] 279360 I64 [];
   R [F "net"; F "udpv4"; F "InErrors"] 279368 I64 [];
   R [F "net"; F "udpv4"; F "OutDatagrams"] 279376 I64 [];
   R [F "net"; F "ipv6"; F "Ip6InReceives"] 279384 I64 [];
   R [F "net"; F "ipv6"; F "Ip6InHdrErrors"] 279392 I64 [];
   R [F "net"; F "ipv6"; F "Ip6InTooBigErrors"] 279400 I64 [];
   R [F "net"; F "ipv6"; F "Ip6InNoRoutes"] 279408 I64 [];
   R [F "net"; F "ipv6"; F "Ip6InAddrErrors"] 279416 I64 [];
   R [F "net"; F "ipv6"; F "Ip6InUnknownProtos"] 279424 I64 [];
   R [F "net"; F "ipv6"; F "Ip6InTruncatedPkts"] 279432 I64 [];
   R [F "net"; F "ipv6"; F "Ip6InDiscards"] 279440 I64 [];
   R [F "net"; F "ipv6"; F "Ip6InDelivers"] 279448 I64 [];
   R [F "net"; F "ipv6"; F "Ip6OutForwDatagrams"] 279456 I64 [];
   R [F "net"; F "ipv6"; F "Ip6OutRequests"] 279464 I64 [];
   R [F "net"; F "ipv6"; F "Ip6OutDiscards"] 279472 I64 [];
   R [F "net"; F "ipv6"; F "Ip6OutNoRoutes"] 279480 I64 [];
   R [F "net"; F "ipv6"; F "Ip6ReasmTimeout"] 279488 I64 [];
   R [F "net"; F "ipv6"; F "Ip6ReasmReqds"] 279496 I64 [];
   R [F "net"; F "ipv6"; F "Ip6ReasmOKs"] 279504 I64 [];
   R [F "net"; F "ipv6"; F "Ip6ReasmFails"] 279512 I64 [];
   R [F "net"; F "ipv6"; F "Ip6FragOKs"] 279520 I64 [];
   R [F "net"; F "ipv6"; F "Ip6FragFails"] 279528 I64 [];
   R [F "net"; F "ipv6"; F "Ip6FragCreates"] 279536 I64 [];
   R [F "net"; F "ipv6"; F "Ip6InMcastPkts"] 279544 I64 [];
   R [F "net"; F "ipv6"; F "Ip6OutMcastPkts"] 279552 I64 [];
   R [F "net"; F "icmpv6"; F "Icmp6InMsgs"] 279560 I64 [];
   R [F "net"; F "icmpv6"; F "Icmp6InErrors"] 279568 I64 [];
   R [F "net"; F "icmpv6"; F "Icmp6InDestUnreachs"] 279576 I64 [];
   R [F "net"; F "icmpv6"; F "Icmp6InPktTooBigs"] 279584 I64 [];
   R [F "net"; F "icmpv6"; F "Icmp6InTimeExcds"] 279592 I64 [];
   R [F "net"; F "icmpv6"; F "Icmp6InParmProblems"] 279600 I64 [];
   R [F "net"; F "icmpv6"; F "Icmp6InEchos"] 279608 I64 [];
   R [F "net"; F "icmpv6"; F "Icmp6InEchoReplies"] 279616 I64 [];
   R [F "net"; F "icmpv6"; F "Icmp6InGroupMembQueries"] 279624 I64 [];
   R [F "net"; F "icmpv6"; F "Icmp6InGroupMembResponses"] 279632 I64 [];
   R [F "net"; F "icmpv6"; F "Icmp6InGroupMembReductions"] 279640 I64 [];
   R [F "net"; F "icmpv6"; F "Icmp6InRouterSolicits"] 279648 I64 [];
   R [F "net"; F "icmpv6"; F "Icmp6InRouterAdvertisements"] 279656 I64 [];
   R [F "net"; F "icmpv6"; F "Icmp6InNeighborSolicits"] 279664 I64 [];
   R [F "net"; F "icmpv6"; F "Icmp6InNeighborAdvertisements"] 279672 I64 [];
   R [F "net"; F "icmpv6"; F "Icmp6InRedirects"] 279680 I64 [];
   R [F "net"; F "icmpv6"; F "Icmp6OutMsgs"] 279688 I64 [];
   R [F "net"; F "icmpv6"; F "Icmp6OutDestUnreachs"] 279696 I64 [];
   R [F "net"; F "icmpv6"; F "Icmp6OutPktTooBigs"] 279704 I64 [];
   R [F "net"; F "icmpv6"; F "Icmp6OutTimeExcds"] 279712 I64 [];
   R [F "net"; F "icmpv6"; F "Icmp6OutParmProblems"] 279720 I64 [];
   R [F "net"; F "icmpv6"; F "Icmp6OutEchoReplies"] 279728 I64 [];
   R [F "net"; F "icmpv6"; F "Icmp6OutRouterSolicits"] 279736 I64 [];
   R [F "net"; F "icmpv6"; F "Icmp6OutNeighborSolicits"] 279744 I64 [];
   R [F "net"; F "icmpv6"; F "Icmp6OutNeighborAdvertisements"] 279752 I64 [];
   R [F "net"; F "icmpv6"; F "Icmp6OutRedirects"] 279760 I64 [];
   R [F "net"; F "icmpv6"; F "Icmp6OutGroupMembResponses"] 279768 I64 [];
   R [F "net"; F "icmpv6"; F "Icmp6OutGroupMembReductions"] 279776 I64 [];
   R [F "net"; F "udpv6"; F "Udp6InDatagrams"] 279784 I64 [];
   R [F "net"; F "udpv6"; F "Udp6NoPorts"] 279792 I64 [];
   R [F "net"; F "udpv6"; F "Udp6InErrors"] 279800 I64 [];
   R [F "net"; F "udpv6"; F "Udp6OutDatagrams"] 279808 I64 [];
   R [F "net"; F "tcp"; F "RtoAlgorithm"] 279816 I64 [];
   R [F "net"; F "tcp"; F "RtoMin"] 279824 I64 [];
   R [F "net"; F "tcp"; F "RtoMax"] 279832 I64 [];
   R [F "net"; F "tcp"; F "MaxConn"] 279840 I64 [];
   R [F "net"; F "tcp"; F "ActiveOpens"] 279848 I64 [];
   R [F "net"; F "tcp"; F "PassiveOpens"] 279856 I64 [];
   R [F "net"; F "tcp"; F "AttemptFails"] 279864 I64 [];
   R [F "net"; F "tcp"; F "EstabResets"] 279872 I64 [];
   R [F "net"; F "tcp"; F "CurrEstab"] 279880 I64 [];
   R [F "net"; F "tcp"; F "InSegs"] 279888 I64 [];
   R [F "net"; F "tcp"; F "OutSegs"] 279896 I64 [];
   R [F "net"; F "tcp"; F "RetransSegs"] 279904 I64 [];
   R [F "net"; F "tcp"; F "InErrs"] 279912 I64 [];
   R [F "net"; F "tcp"; F "OutRsts"] 279920 I64 [];
   R [F "intf"; F "nrintf"] 279928 I32 [];
   R [F "intf"; F "intf"; E; F "name"] 279936 (Text 16) [D 128 272 (Some (279928, I32))];
   R [F "intf"; F "intf"; E; F "rbyte"] 279952 I64 [D 128 272 (Some (279928, I32))];
   R [F "intf"; F "intf"; E; F "rpack"] 279960 I64 [D 128 272 (Some (279928, I32))];
   R [F "intf"; F "intf"; E; F "rerrs"] 279968 I64 [D 128 272 (Some (279928, I32))];
   R [F "intf"; F "intf"; E; F "rdrop"] 279976 I64 [D 128 272 (Some (279928, I32))];
   R [F "intf"; F "intf"; E; F "rfifo"] 279984 I64 [D 128 272 (Some (279928, I32))];
   R [F "intf"; F "intf"; E; F "rframe"] 279992 I64 [D 128 272 (Some (279928, I32))];
   R [F "intf"; F "intf"; E; F "rcompr"] 280000 I64 [D 128 272 (Some (279928, I32))];
   R [F "intf"; F "intf"; E; F "rmultic"] 280008 I64 [D 128 272 (Some (279928, I32))];
   R [F "intf"; F "intf"; E; F "rfuture"; E] 280016 I64 [D 128 272 (Some (279928, I32)); D 4 8 None];
   R [F "intf"; F "intf"; E; F "sbyte"] 280048 I64 [D 128 272 (Some (279928, I32))];
   R [F "intf"; F "intf"; E; F "spack"] 280056 I64 [D 128 272 (Some (279928, I32))];
   R [F "intf"; F "intf"; E; F "serrs"] 280064 I64 [D 128 272 (Some (279928, I32))];
   R [F "intf"; F "intf"; E; F "sdrop"] 280072 I64 [D 128 272 (Some (279928, I32))];
   R [F "intf"; F "intf"; E; F "sfifo"] 280080 I64 [D 128 272 (Some (279928, I32))];
   R [F "intf"; F "intf"; E; F "scollis"] 280088 I64 [D 128 272 (Some (279928, I32))];
   R [F "intf"; F "intf"; E; F "scarrier"] 280096 I64 [D 128 272 (Some (279928, I32))];
   R [F "intf"; F "intf"; E; F "scompr"] 280104 I64 [D 128 272 (Some (279928, I32))];
   R [F "intf"; F "intf"; E; F "sfuture"; E] 280112 I64 [D 128 272 (Some (279928, I32)); D 4 8 None];
   R [F "intf"; F "intf"; E; F "type"] 280144 Chr [D 128 272 (Some (279928, I32))];
   R [F "intf"; F "intf"; E; F "speed"] 280152 I64 [D 128 272 (Some (279928, I32))];
   R [F "intf"; F "intf"; E; F "speedp"] 280160 I64 [D 128 272 (Some (279928, I32))];
   R [F "intf"; F "intf"; E; F "duplex"] 280168 Chr [D 128 272 (Some (279928, I32))];
   R [F "intf"; F "intf"; E; F "cfuture"; E] 280176 I64 [D 128 272 (Some (279928, I32)); D 4 8 None];
   R [F "dsk"; F "ndsk"] 314752 I32 [];
   R [F "dsk"; F "nmdd"] 314756 I32 [];
   R [F "dsk"; F "nlvm"] 314760 I32 [];
   R [F "dsk"; F "dsk"; E; F "name"] 314768 (Text 32) [D 1024 112 (Some (314752, I32))];
   R [F "dsk"; F "dsk"; E; F "nread"] 314800 I64 [D 1024 112 (Some (314752, I32))];
   R [F "dsk"; F "dsk"; E; F "nrsect"] 314808 I64 [D 1024 112 (Some (314752, I32))];
   R [F "dsk"; F "dsk"; E; F "nwrite"] 314816 I64 [D 1024 112 (Some (314752, I32))];
   R [F "dsk"; F "dsk"; E; F "nwsect"] 314824 I64 [D 1024 112 (Some (314752, I32))];
   R [F "dsk"; F "dsk"; E; F "io_ms"] 314832 I64 [D 1024 112 (Some (314752, I32))];
   R [F "dsk"; F "dsk"; E; F "avque"] 314840 I64 [D 1024 112 (Some (314752, I32))];
   R [F "dsk"; F "dsk"; E; F "cfuture"; E] 314848 I64 [D 1024 112 (Some (314752, I32)); D 4 8 None];
   R [F "dsk"; F "mdd"; E; F "name"] 429456 (Text 32) [D 256 112 (Some (314756, I32))];
   R [F "dsk"; F "mdd"; E; F "nread"] 429488 I64 [D 256 112 (Some (314756, I32))];
   R [F "dsk"; F "mdd"; E; F "nrsect"] 429496 I64 [D 256 112 (Some (314756, I32))];
   R [F "dsk"; F "mdd"; E; F "nwrite"] 429504 I64 [D 256 112 (Some (314756, I32))];
   R [F "dsk"; F "mdd"; E; F "nwsect"] 429512 I64 [D 256 112 (Some (314756, I32))];
   R [F "dsk"; F "mdd"; E; F "io_ms"] 429520 I64 [D 256 112 (Some (314756, I32))];
   R [F "dsk"; F "mdd"; E; F "avque"] 429528 I64 [D 256 112 (Some (314756, I32))];
   R [F "dsk"; F "mdd"; E; F "cfuture"; E] 429536 I64 [D 256 112 (Some (314756, I32)); D 4 8 None];
   R [F "dsk"; F "lvm"; E; F "name"] 458128 (Text 32) [D 2048 112 (Some (314760, I32))];
   R [F "dsk"; F "lvm"; E; F "nread"] 458160 I64 [D 2048 112 (Some (314760, I32))];
   R [F "dsk"; F "lvm"; E; F "nrsect"] 458168 I64 [D 2048 112 (Some (314760, I32))];
   R [F "dsk"; F "lvm"; E; F "nwrite"] 458176 I64 [D 2048 112 (Some (314760, I32))];
   R [F "dsk"; F "lvm"; E; F "nwsect"] 458184 I64 [D 2048 112 (Some (314760, I32))];
   R [F "dsk"; F "lvm"; E; F "io_ms"] 458192 I64 [D 2048 112 (Some (314760, I32))];
   R [F "dsk"; F "lvm"; E; F "avque"] 458200 I64 [D 2048 112 (Some (314760, I32))];
   R [F "dsk"; F "lvm"; E; F "cfuture"; E] 458208 I64 [D 2048 112 (Some (314760, I32)); D 4 8 None];
   R [F "nfs"; F "server"; F "netcnt"] 687504 I64 [];
   R [F "nfs"; F "server"; F "netudpcnt"] 687512 I64 [];
   R [F "nfs"; F "server"; F "nettcpcnt"] 687520 I64 [];
   R [F "nfs"; F "server"; F "nettcpcon"] 687528 I64 [];
   R [F "nfs"; F "server"; F "rpccnt"] 687536 I64 [];
   R [F "nfs"; F "server"; F "rpcbadfmt"] 687544 I64 [];
   R [F "nfs"; F "server"; F "rpcbadaut"] 687552 I64 [];
   R [F "nfs"; F "server"; F "rpcbadcln"] 687560 I64 [];
   R [F "nfs"; F "server"; F "rpcread"] 687568 I64 [];
   R [F "nfs"; F "server"; F "rpcwrite"] 687576 I64 [];
   R [F "nfs"; F "server"; F "rchits"] 687584 I64 [];
   R [F "nfs"; F "server"; F "rcmiss"] 687592 I64 [];
   R [F "nfs"; F "server"; F "rcnoca"] 687600 I64 [];
   R [F "nfs"; F "server"; F "nrbytes"] 687608 I64 [];
   R [F "nfs"; F "server"; F "nwbytes"] 687616 I64 [];
   R [F "nfs"; F "server"; F "future"; E] 687624 I64 [D 8 8 None];
   R [F "nfs"; F "client"; F "rpccnt"] 687688 I64 [];
   R [F "nfs"; F "client"; F "rpcretrans"] 687696 I64 [];
   R [F "nfs"; F "client"; F "rpcautrefresh"] 687704 I64 [];
   R [F "nfs"; F "client"; F "rpcread"] 687712 I64 [];
   R [F "nfs"; F "client"; F "rpcwrite"] 687720 I64 [];
   R [F "nfs"; F "client"; F "future"; E] 687728 I64 [D 8 8 None];
   R [F "nfs"; F "nfsmounts"; F "nrmounts"] 687792 I32 [];
   R [F "nfs"; F "nfsmounts"; F "nfsmnt"; E; F "mountdev"] 687800 (Text 128) [D 64 264 (Some (687792, I32))];
   R [F "nfs"; F "nfsmounts"; F "nfsmnt"; E; F "age"] 687928 I64 [D 64 264 (Some (687792, I32))];
   R [F "nfs"; F "nfsmounts"; F "nfsmnt"; E; F "bytesread"] 687936 I64 [D 64 264 (Some (687792, I32))];
   R [F "nfs"; F "nfsmounts"; F "nfsmnt"; E; F "byteswrite"] 687944 I64 [D 64 264 (Some (687792, I32))];
   R [F "nfs"; F "nfsmounts"; F "nfsmnt"; E; F "bytesdread"] 687952 I64 [D 64 264 (Some (687792, I32))];
   R [F "nfs"; F "nfsmounts"; F "nfsmnt"; E; F "bytesdwrite"] 687960 I64 [D 64 264 (Some (687792, I32))];
   R [F "nfs"; F "nfsmounts"; F "nfsmnt"; E; F "bytestotread"] 687968 I64 [D 64 264 (Some (687792, I32))];
   R [F "nfs"; F "nfsmounts"; F "nfsmnt"; E; F "bytestotwrite"] 687976 I64 [D 64 264 (Some (687792, I32))];
   R [F "nfs"; F "nfsmounts"; F "nfsmnt"; E; F "pagesmread"] 687984 I64 [D 64 264 (Some (687792, I32))];
   R [F "nfs"; F "nfsmounts"; F "nfsmnt"; E; F "pagesmwrite"] 687992 I64 [D 64 264 (Some (687792, I32))];
   R [F "nfs"; F "nfsmounts"; F "nfsmnt"; E; F "future"; E] 688000 I64 [D 64 264 (Some (687792, I32)); D 8 8 None];
   R [F "cfs"; F "nrcontainer"] 704696 I32 [];
   R [F "cfs"; F "cont"; E; F "ctid"] 704704 U64 [D 128 56 (Some (704696, I32))];
   R [F "cfs"; F "cont"; E; F "numproc"] 704712 U64 [D 128 56 (Some (704696, I32))];
   R [F "cfs"; F "cont"; E; F "system"] 704720 I64 [D 128 56 (Some (704696, I32))];
   R [F "cfs"; F "cont"; E; F "user"] 704728 I64 [D 128 56 (Some (704696, I32))];
   R [F "cfs"; F "cont"; E; F "nice"] 704736 I64 [D 128 56 (Some (704696, I32))];
   R [F "cfs"; F "cont"; E; F "uptime"] 704744 I64 [D 128 56 (Some (704696, I32))];
   R [F "cfs"; F "cont"; E; F "physpages"] 704752 I64 [D 128 56 (Some (704696, I32))];
   R [F "psi"; F "present"] 711872 Chr [];
   R [F "psi"; F "future"] 711873 (Text 3) [];
   R [F "psi"; F "cpusome"; F "avg10"] 711880 F32 [];
   R [F "psi"; F "cpusome"; F "avg60"] 711884 F32 [];
   R [F "psi"; F "cpusome"; F "avg300"] 711888 F32 [];
   R [F "psi"; F "cpusome"; F "total"] 711896 I64 [];
   R [F "psi"; F "memsome"; F "avg10"] 711904 F32 [];
   R [F "psi"; F "memsome"; F "avg60"] 711908 F32 [];
   R [F "psi"; F "memsome"; F "avg300"] 711912 F32 [];
   R [F "psi"; F "memsome"; F "total"] 711920 I64 [];
   R [F "psi"; F "memfull"; F "avg10"] 711928 F32 [];
   R [F "psi"; F "memfull"; F "avg60"] 711932 F32 [];
   R [F "psi"; F "memfull"; F "avg300"] 711936 F32 [];
   R [F "psi"; F "memfull"; F "total"] 711944 I64 [];
   R [F "psi"; F "iosome"; F "avg10"] 711952 F32 [];
   R [F "psi"; F "iosome"; F "avg60"] 711956 F32 [];
   R [F "psi"; F "iosome"; F "avg300"] 711960 F32 [];
   R [F "psi"; F "iosome"; F "total"] 711968 I64 [];
   R [F "psi"; F "iofull"; F "avg10"] 711976 F32 [];
   R [F "psi"; F "iofull"; F "avg60"] 711980 F32 [];
   R [F "psi"; F "iofull"; F "avg300"] 711984 F32 [];
   R [F "psi"; F "iofull"; F "total"] 711992 I64 [];
   R [F "gpu"; F "nrgpus"] 712000 I32 [];
   R [F "gpu"; F "gpu"; E; F "taskstats"] 712008 Chr [D 32 88 (Some (712000, I32))];
   R [F "gpu"; F "gpu"; E; F "nrprocs"] 712009 U8 [D 32 88 (Some (712000, I32))];
   R [F "gpu"; F "gpu"; E; F "type"] 712010 (Text 13) [D 32 88 (Some (712000, I32))];
   R [F "gpu"; F "gpu"; E; F "busid"] 712023 (Text 13) [D 32 88 (Some (712000, I32))];
   R [F "gpu"; F "gpu"; E; F "gpunr"] 712036 I32 [D 32 88 (Some (712000, I32))];
   R [F "gpu"; F "gpu"; E; F "gpupercnow"] 712040 I32 [D 32 88 (Some (712000, I32))];
   R [F "gpu"; F "gpu"; E; F "mempercnow"] 712044 I32 [D 32 88 (Some (712000, I32))];
   R [F "gpu"; F "gpu"; E; F "memtotnow"] 712048 I64 [D 32 88 (Some (712000, I32))];
   R [F "gpu"; F "gpu"; E; F "memusenow"] 712056 I64 [D 32 88 (Some (712000, I32))];
   R [F "gpu"; F "gpu"; E; F "samples"] 712064 I64 [D 32 88 (Some (712000, I32))];
   R [F "gpu"; F "gpu"; E; F "gpuperccum"] 712072 I64 [D 32 88 (Some (712000, I32))];
   R [F "gpu"; F "gpu"; E; F "memperccum"] 712080 I64 [D 32 88 (Some (712000, I32))];
   R [F "gpu"; F "gpu"; E; F "memusecum"] 712088 I64 [D 32 88 (Some (712000, I32))];
   R [F "ifb"; F "nrports"] 714824 I32 [];
   R [F "ifb"; F "ifb"; E; F "ibname"] 714832 (Text 12) [D 32 56 (Some (714824, I32))];
   R [F "ifb"; F "ifb"; E; F "portnr"] 714844 I16 [D 32 56 (Some (714824, I32))];
   R [F "ifb"; F "ifb"; E; F "lanes"] 714846 I16 [D 32 56 (Some (714824, I32))];
   R [F "ifb"; F "ifb"; E; F "rate"] 714848 I64 [D 32 56 (Some (714824, I32))];
   R [F "ifb"; F "ifb"; E; F "rcvb"] 714856 I64 [D 32 56 (Some (714824, I32))];
   R [F "ifb"; F "ifb"; E; F "sndb"] 714864 I64 [D 32 56 (Some (714824, I32))];
   R [F "ifb"; F "ifb"; E; F "rcvp"] 714872 I64 [D 32 56 (Some (714824, I32))];
   R [F "ifb"; F "ifb"; E; F "sndp"] 714880 I64 [D 32 56 (Some (714824, I32))];
   R [F "www"; F "accesses"] 716624 I64 [];
   R [F "www"; F "totkbytes"] 716632 I64 [];
   R [F "www"; F "uptime"] 716640 I64 [];
   R [F "www"; F "bworkers"] 716648 I32 [];
   R [F "www"; F "iworkers"] 716652 I32 []].

Definition tstat_2_6 : list row := [
   R [F "gen"; F "tgid"] 0 I32 [];
   R [F "gen"; F "pid"] 4 I32 [];
   R [F "gen"; F "ppid"] 8 I32 [];
   R [F "gen"; F "ruid"] 12 I32 [];
   R [F "gen"; F "euid"] 16 I32 [];
   R [F "gen"; F "suid"] 20 I32 [];
   R [F "gen"; F "fsuid"] 24 I32 [];
   R [F "gen"; F "rgid"] 28 I32 [];
   R [F "gen"; F "egid"] 32 I32 [];
   R [F "gen"; F "sgid"] 36 I32 [];
   R [F "gen"; F "fsgid"] 40 I32 [];
   R [F "gen"; F "nthr"] 44 I32 [];
   R [F "gen"; F "name"] 48 (Text 16) [];
   R [F "gen"; F "isproc"] 64 Chr [];
   R [F "gen"; F "state"] 65 Chr [];
   R [F "gen"; F "excode"] 68 I32 [];
   R [F "gen"; F "btime"] 72 I64 [];
   R [F "gen"; F "elaps"] 80 I64 [];
   R [F "gen"; F "cmdline"] 88 (Text 256) [];
   R [F "gen"; F "nthrslpi"] 344 I32 [];
   R [F "gen"; F "nthrslpu"] 348 I32 [];
   R [F "gen"; F "nthrrun"] 352 I32 [];
   R [F "gen"; F "ctid"] 356 I32 [];
   R [F "gen"; F "vpid"] 360 I32 [];
   R [F "gen"; F "wasinactive"] 364 I32 [];
   R [F "gen"; F "container"] 368 (Text 16) [];
   R [F "cpu"; F "utime"] 384 I64 [];
   R [F "cpu"; F "stime"] 392 I64 [];
   R [F "cpu"; F "nice"] 400 I32 [];
   R [F "cpu"; F "prio"] 404 I32 [];
   R [F "cpu"; F "rtprio"] 408 I32 [];
   R [F "cpu"; F "policy"] 412 I32 [];
   R [F "cpu"; F "curcpu"] 416 I32 [];
   R [F "cpu"; F "sleepavg"] 420 I32 [];
   R [F "cpu"; F "ifuture"; E] 424 I32 [D 4 4 None];
   R [F "cpu"; F "wchan"] 440 (Text 16) [];
   R [F "cpu"; F "rundelay"] 456 I64 [];
   R [F "cpu"; F "cfuture"] 464 I64 [];
   R [F "dsk"; F "rio"] 472 I64 [];
   R [F "dsk"; F "rsz"] 480 I64 [];
   R [F "dsk"; F "wio"] 488 I64 [];
   R [F "dsk"; F "wsz"] 496 I64 [];
   R [F "dsk"; F "cwsz"] 504 I64 [];
   R [F "dsk"; F "cfuture"; E] 512 I64 [D 4 8 None];
   R [F "mem"; F "minflt"] 544 I64 [];
   R [F "mem"; F "majflt"] 552 I64 [];
   R [F "mem"; F "vexec"] 560 I64 [];
   R [F "mem"; F "vmem"] 568 I64 [];
   R [F "mem"; F "rmem"] 576 I64 [];
   R [F "mem"; F "pmem"] 584 I64 [];
   R [F "mem"; F "vgrow"] 592 I64 [];
   R [F "mem"; F "rgrow"] 600 I64 [];
   R [F "mem"; F "vdata"] 608 I64 [];
   R [F "mem"; F "vstack"] 616 I64 [];
   R [F "mem"; F "vlibs"] 624 I64 [];
   R [F "mem"; F "vswap"] 632 I64 [];
   R [F "mem"; F "vlock"] 640 I64 [];
   R [F "mem"; F "cfuture"; E] 648 I64 [D 3 8 None];
   R [F "net"; F "tcpsnd"] 672 I64 [];
   R [F "net"; F "tcpssz"] 680 I64 [];
   R [F "net"; F "tcprcv"] 688 I64 [];
   R [F "net"; F "tcprsz"] 696 I64 [];
   R [F "net"; F "udpsnd"] 704 I64 [];
   R [F "net"; F "udpssz"] 712 I64 [];
   R [F "net"; F "udprcv"] 720 I64 [];
   R [F "net"; F "udprsz"] 728 I64 [];
   R [F "net"; F "avail1"] 736 I64 [];
   R [F "net"; F "avail2"] 744 I64 [];
   R [F "net"; F "cfuture"; E] 752 I64 [D 4 8 None];
   R [F "gpu"; F "state"] 784 Chr [];
   R [F "gpu"; F "cfuture"] 785 (Text 3) [];
   R [F "gpu"; F "nrgpus"] 788 I16 [];
   R [F "gpu"; F "gpulist"] 792 I32 [];
   R [F "gpu"; F "gpubusy"] 796 I32 [];
   R [F "gpu"; F "membusy"] 800 I32 [];
   R [F "gpu"; F "timems"] 808 I64 [];
   R [F "gpu"; F "memnow"] 816 I64 [];
   R [F "gpu"; F "memcum"] 824 I64 [];
   R [F "gpu"; F "sample"] 832 I64 []].

Definition sstat_2_7 : list row := [
   R [F "cpu"; F "nrcpu"] 0 I64 [];
   R [F "cpu"; F "devint"] 8 I64 [];
   R [F "cpu"; F "csw"] 16 I64 [];
   R [F "cpu"; F "nprocs"] 24 I64 [];
   R [F "cpu"; F "lavg1"] 32 F32 [];
   R [F "cpu"; F "lavg5"] 36 F32 [];
   R [F "cpu"; F "lavg15"] 40 F32 [];
   R [F "cpu"; F "cfuture"; E] 48 I64 [D 4 8 None];
   R [F "cpu"; F "all"; F "cpunr"] 80 I32 [];
   R [F "cpu"; F "all"; F "stime"] 88 I64 [];
   R [F "cpu"; F "all"; F "utime"] 96 I64 [];
   R [F "cpu"; F "all"; F "ntime"] 104 I64 [];
   R [F "cpu"; F "all"; F "itime"] 112 I64 [];
   R [F "cpu"; F "all"; F "wtime"] 120 I64 [];
   R [F "cpu"; F "all"; F "Itime"] 128 I64 [];
   R [F "cpu"; F "all"; F "Stime"] 136 I64 [];
   R [F "cpu"; F "all"; F "steal"] 144 I64 [];
   R [F "cpu"; F "all"; F "guest"] 152 I64 [];
   R [F "cpu"; F "all"; F "freqcnt"; F "maxfreq"] 160 I64 [];
   R [F "cpu"; F "all"; F "freqcnt"; F "cnt"] 168 I64 [];
   R [F "cpu"; F "all"; F "freqcnt"; F "ticks"] 176 I64 [];
   R [F "cpu"; F "all"; F "instr"] 184 I64 [];
   R [F "cpu"; F "all"; F "cycle"] 192 I64 [];
   R [F "cpu"; F "all"; F "cfuture"; E] 200 I64 [D 6 8 None];
   R [F "cpu"; F "cpu"; E; F "cpunr"] 248 I32 [D 2048 168 (Some (0, I64))];
   R [F "cpu"; F "cpu"; E; F "stime"] 256 I64 [D 2048 168 (Some (0, I64))];
   R [F "cpu"; F "cpu"; E; F "utime"] 264 I64 [D 2048 168 (Some (0, I64))];
   R [F "cpu"; F "cpu"; E; F "ntime"] 272 I64 [D 2048 168 (Some (0, I64))];
   R [F "cpu"; F "cpu"; E; F "itime"] 280 I64 [D 2048 168 (Some (0, I64))];
   R [F "cpu"; F "cpu"; E; F "wtime"] 288 I64 [D 2048 168 (Some (0, I64))];
   R [F "cpu"; F "cpu"; E; F "Itime"] 296 I64 [D 2048 168 (Some (0, I64))];
   R [F "cpu"; F "cpu"; E; F "Stime"] 304 I64 [D 2048 168 (Some (0, I64))];
   R [F "cpu"; F "cpu"; E; F "steal"] 312 I64 [D 2048 168 (Some (0, I64))];
   R [F "cpu"; F "cpu"; E; F "guest"] 320 I64 [D 2048 168 (Some (0, I64))];
   R [F "cpu"; F "cpu"; E; F "freqcnt"; F "maxfreq"] 328 I64 [D 2048 168 (Some (0, I64))];
   R [F "cpu"; F "cpu"; E; F "freqcnt"; F "cnt"] 336 I64 [D 2048 168 (Some (0, I64))];
   R [F "cpu"; F "cpu"; E; F "freqcnt"; F "ticks"] 344 I64 [D 2048 168 (Some (0, I64))];
   R [F "cpu"; F "cpu"; E; F "instr"] 352 I64 [D 2048 168 (Some (0, I64))];
   R [F "cpu"; F "cpu"; E; F "cycle"] 360 I64 [D 2048 168 (Some (0, I64))];
   R [F "cpu"; F "cpu"; E; F "cfuture"; E] 368 I64 [D 2048 168 (Some (0, I64)); D 6 8 None];
   R [F "mem"; F "physmem"] 344312 I64 [];
   R [F "mem"; F "freemem"] 344320 I64 [];
   R [F "mem"; F "buffermem"] 344328 I64 [];
   R [F "mem"; F "slabmem"] 344336 I64 [];
   R [F "mem"; F "cachemem"] 344344 I64 [];
   R [F "mem"; F "cachedrt"] 344352 I64 [];
   R [F "mem"; F "totswap"] 344360 I64 [];
   R [F "mem"; F "freeswap"] 344368 I64 [];
   R [F "mem"; F "pgscans"] 344376 I64 [];
   R [F "mem"; F "pgsteal"] 344384 I64 [];
   R [F "mem"; F "allocstall"] 344392 I64 [];
   R [F "mem"; F "swouts"] 344400 I64 [];
   R [F "mem"; F "swins"] 344408 I64 [];
   R [F "mem"; F "commitlim"] 344416 I64 [];
   R [F "mem"; F "committed"] 344424 I64 [];
   R [F "mem"; F "shmem"] 344432 I64 [];
   R [F "mem"; F "shmrss"] 344440 I64 [];
   R [F "mem"; F "shmswp"] 344448 I64 [];
   R [F "mem"; F "slabreclaim"] 344456 I64 [];
   R [F "mem"; F "tothugepage"] 344464 I64 [];
   R [F "mem"; F "freehugepage"] 344472 I64 [];
   R [F "mem"; F "hugepagesz"] 344480 I64 [];
   R [F "mem"; F "vmwballoon"] 344488 I64 [];
   R [F "mem"; F "zfsarcsize"] 344496 I64 [];
   R [F "mem"; F "swapcached"] 344504 I64 [];
   R [F "mem"; F "ksmsharing"] 344512 I64 [];
   R [F "mem"; F "ksmshared"] 344520 I64 [];
   R [F "mem"; F "zswstored"] 344528 I64 [];
   R [F "mem"; F "zswtotpool"] 344536 I64 [];
   R [F "mem"; F "oomkills"] 344544 I64 [];
   R [F "mem"; F "compactstall"] 344552 I64 [];
   R [F "mem"; F "pgmigrate"] 344560 I64 [];
   R [F "mem"; F "numamigrate"] 344568 I64 [];
   R [F "mem"; F "cfuture"; E] 344576 I64 [D 9 8 None];
   R [F "net"; F "ipv4"; F "Forwarding"] 344648 I64 [];
   R [F "net"; F "ipv4"; F "DefaultTTL"] 344656 I64 [];
   R [F "net"; F "ipv4"; F "InReceives"] 344664 I64 [];
   R [F "net"; F "ipv4"; F "InHdrErrors"] 344672 I64 [];
   R [F "net"; F "ipv4"; F "InAddrErrors"] 344680 I64 [];
   R [F "net"; F "ipv4"; F "ForwDatagrams"] 344688 I64 [];
   R [F "net"; F "ipv4"; F "InUnknownProtos"] 344696 I64 [];
   R [F "net"; F "ipv4"; F "InDiscards"] 344704 I64 [];
   R [F "net"; F "ipv4"; F "InDelivers"] 344712 I64 [];
   R [F "net"; F "ipv4"; F "OutRequests"] 344720 I64 [];
   R [F "net"; F "ipv4"; F "OutDiscards"] 344728 I64 [];
   R [F "net"; F "ipv4"; F "OutNoRoutes"] 344736 I64 [];
   R [F "net"; F "ipv4"; F "ReasmTimeout"] 344744 I64 [];
   R [F "net"; F "ipv4"; F "ReasmReqds"] 344752 I64 [];
   R [F "net"; F "ipv4"; F "ReasmOKs"] 344760 I64 [];
   R [F "net"; F "ipv4"; F "ReasmFails"] 344768 I64 [];
   R [F "net"; F "ipv4"; F "FragOKs"] 344776 I64 [];
   R [F "net"; F "ipv4"; F "FragFails"] 344784 I64 [];
   R [F "net"; F "ipv4"; F "FragCreates"] 344792 I64 [];
   R [F "net"; F "icmpv4"; F "InMsgs"] 344800 I64 [];
   R [F "net"; F "icmpv4"; F "InErrors"] 344808 I64 [];
   R [F "net"; F "icmpv4"; F "InDestUnreachs"] 344816 I64 [];
   R [F "net"; F "icmpv4"; F "InTimeExcds"] 344824 I64 [];
   R [F "net"; F "icmpv4"; F "InParmProbs"] 344832 I64 [];
   R [F "net"; F "icmpv4"; F "InSrcQuenchs"] 344840 I64 [];
   R [F "net"; F "icmpv4"; F "InRedirects"] 344848 I64 [];
   R [F "net"; F "icmpv4"; F "InEchos"] 344856 I64 [];
   R [F "net"; F "icmpv4"; F "InEchoReps"] 344864 I64 [];
   R [F "net"; F "icmpv4"; F "InTimestamps"] 344872 I64 [];
   R [F "net"; F "icmpv4"; F "InTimestampReps"] 344880 I64 [];
   R [F "net"; F "icmpv4"; F "InAddrMasks"] 344888 I64 [];
   R [F "net"; F "icmpv4"; F "InAddrMaskReps"] 344896 I64 [];
   R [F "net"; F "icmpv4"; F "OutMsgs"] 344904 I64 [];
   R [F "net"; F "icmpv4"; F "OutErrors"] 344912 I64 [];
   R [F "net"; F "icmpv4"; F "OutDestUnreachs"] 344920 I64 [];
   R [F "net"; F "icmpv4"; F "OutTimeExcds"] 344928 I64 [];
   R [F "net"; F "icmpv4"; F "OutParmProbs"] 344936 I64 [];
   R [F "net"; F "icmpv4"; F "OutSrcQuenchs"] 344944 I64 [];
   R [F "net"; F "icmpv4"; F "OutRedirects"] 344952 I64 [];
   R [F "net"; F "icmpv4"; F "OutEchos"] 344960 I64 [];
   R [F "net"; F "icmpv4"; F "OutEchoReps"] 344968 I64 [];
   R [F "net"; F "icmpv4"; F "OutTimestamps"] 344976 I64 [];
   R [F "net"; F "icmpv4"; F "OutTimestampReps"] 344984 I64 [];
   R [F "net"; F "icmpv4"; F "OutAddrMasks"] 344992 I64 [];
   R [F "net"; F "icmpv4"; F "OutAddrMaskReps"] 345000 I64 [];
   R [F "net"; F "udpv4"; F "InDatagrams"] 345008 I64 [];
   R [F "net"; F "udpv4"; F "NoPorts"] 345016 I64 [];
   R [F "net"; F "udpv4"; F "InErrors"] 345024 I64 [];
   R [F "net"; F "udpv4"; F "OutDatagrams"] 345032 I64 [];
   R [F "net"; F "ipv6"; F "Ip6InReceives"] 345040 I64 [];
   R [F "net"; F "ipv6"; F "Ip6InHdrErrors"] 345048 I64 [];
   R [F "net"; F "ipv6"; F "Ip6InTooBigErrors"] 345056 I64 [];
   R [F "net"; F "ipv6"; F "Ip6InNoRoutes"] 345064 I64 [];
   R [F "net"; F "ipv6"; F "Ip6InAddrErrors"] 345072 I64 [];
   R [F "net"; F "ipv6"; F "Ip6InUnknownProtos"] 345080 I64 [];
   R [F "net"; F "ipv6"; F "Ip6InTruncatedPkts"] 345088 I64 [];
   R [F "net"; F "ipv6"; F "Ip6InDiscards"] 345096 I64 [];
   R [F "net"; F "ipv6"; F "Ip6InDelivers"] 345104 I64 [];
   R [F "net"; F "ipv6"; F "Ip6OutForwDatagrams"] 345112 I64 [];
   R [F "net"; F "ipv6"; F "Ip6OutRequests"] 345120 I64 [];
   R [F "net"; F "ipv6"; F "Ip6OutDiscards"] 345128 I64 [];
   R [F "net"; F "ipv6"; F "Ip6OutNoRoutes"] 345136 I64 [];
   R [F "net"; F "ipv6"; F "Ip6ReasmTimeout"] 345144 I64 [];
   R [F "net"; F "ipv6"; F "Ip6ReasmReqds"] 345152 I64 [];
   R [F "net"; F "ipv6"; F "Ip6ReasmOKs"] 345160 I64 [];
   R [F "net"; F "ipv6"; F "Ip6ReasmFails"] 345168 I64 [];
   R [F "net"; F "ipv6"; F "Ip6FragOKs"] 345176 I64 [];
   R [F "net"; F "ipv6"; F "Ip6FragFails"] 345184 I64 [];
   R [F "net"; F "ipv6"; F "Ip6FragCreates"] 345192 I64 [];
   R [F "net"; F "ipv6"; F "Ip6InMcastPkts"] 345200 I64 [];
   R [F "net"; F "ipv6"; F "Ip6OutMcastPkts"] 345208 I64 [];
   R [F "net"; F "icmpv6"; F "Icmp6InMsgs"] 345216 I64 [];
   R [F "net"; F "icmpv6"; F "Icmp6InErrors"] 345224 I64 [];
   R [F "net"; F "icmpv6"; F "Icmp6InDestUnreachs"] 345232 I64 [];
   R [F "net"; F "icmpv6"; F "Icmp6InPktTooBigs"] 345240 I64 [];
   R [F "net"; F "icmpv6"; F "Icmp6InTimeExcds"] 345248 I64 [];
   R [F "net"; F "icmpv6"; F "Icmp6InParmProblems"] 345256 I64 [];
   R [F "net"; F "icmpv6"; F "Icmp6InEchos"] 345264 I64 [];
   R [F "net"; F "icmpv6"; F "Icmp6InEchoReplies"] 345272 I64 [];
   R [F "net"; F "icmpv6"; F "Icmp6InGroupMembQueries"] 345280 I64 [];
   R [F "net"; F "icmpv6"; F "Icmp6InGroupMembResponses"] 345288 I64 [];
   R [F "net"; F "icmpv6"; F "Icmp6InGroupMembReductions"] 345296 I64 [];
   R [F "net"; F "icmpv6"; F "Icmp6InRouterSolicits"] 345304 I64 [];
   R [F "net"; F "icmpv6"; F "Icmp6InRouterAdvertisements"] 345312 I64 [];
   R [F "net"; F "icmpv6"; F "Icmp6InNeighborSolicits"] 345320 I64 [];
   R [F "net"; F "icmpv6"; F "Icmp6InNeighborAdvertisements"] 345328 I64 [];
   R [F "net"; F "icmpv6"; F "Icmp6InRedirects"] 345336 I64 [];
   R [F "net"; F "icmpv6"; F "Icmp6OutMsgs"] 345344 I64 [];
   R [F "net"; F "icmpv6"; F "Icmp6OutDestUnreachs"] 345352 I64 [];
   R [F "net"; F "icmpv6"; F "Icmp6OutPktTooBigs"] 345360 I64 [];
   R [F "net"; F "icmpv6"; F "Icmp6OutTimeExcds"] 345368 I64 [];
   R [F "net"; F "icmpv6"; F "Icmp6OutParmProblems"] 345376 I64 [];
   R [F "net"; F "icmpv6"; F "Icmp6OutEchoReplies"] 345384 I64 [];
   R [F "net"; F "icmpv6"; F "Icmp6OutRouterSolicits"] 345392 I64 [];
   R [F "net"; F "icmpv6"; F "Icmp6OutNeighborSolicits"] 345400 I64 [];
   R [F "net"; F "icmpv6"; F "Icmp6OutNeighborAdvertisements"] 345408 I64 [];
   R [F "net"; F "icmpv6"; F "Icmp6OutRedirects"] 345416 I64 [];
   R [F "net"; F "icmpv6"; F "Icmp6OutGroupMembResponses"] 345424 I64 [];
   R [F "net"; F "icmpv6"; F "Icmp6OutGroupMembReductions"] 345432 I64 [];
   R [F "net"; F "udpv6"; F "Udp6InDatagrams"] 345440 I64 [];
   R [F "net"; F "udpv6"; F "Udp6NoPorts"] 345448 I64 [];
   R [F "net"; F "udpv6"; F "Udp6InErrors"] 345456 I64 [];
   R [F "net"; F "udpv6"; F "Udp6OutDatagrams"] 345464 I64 [];
   R [F "net"; F "tcp"; F "RtoAlgorithm"] 345472 I64 [];
   R [F "net"; F "tcp"; F "RtoMin"] 345480 I64 [];
   R [F "net"; F "tcp"; F "RtoMax"] 345488 I64 [];
   R [F "net"; F "tcp"; F "MaxConn"] 345496 I64 [];
   R [F "net"; F "tcp"; F "ActiveOpens"] 345504 I64 [];
   R [F "net"; F "tcp"; F "PassiveOpens"] 345512 I64 [];
   R [F "net"; F "tcp"; F "AttemptFails"] 345520 I64 [];
   R [F "net"; F "tcp"; F "EstabResets"] 345528 I64 [];
   R [F "net"; F "tcp"; F "CurrEstab"] 345536 I64 [];
   R [F "net"; F "tcp"; F "InSegs"] 345544 I64 [];
   R [F "net"; F "tcp"; F "OutSegs"] 345552 I64 [];
   R [F "net"; F "tcp"; F "RetransSegs"] 345560 I64 [];
   R [F "net"; F "tcp"; F "InErrs"] 345568 I64 [];
   R [F "net"; F "tcp"; F "OutRsts"] 345576 I64 [];
   R [F "intf"; F "nrintf"] 345584 I32 [];
   R [F "intf"; F "intf"; E; F "name"] 345592 (Text 16) [D 128 272 (Some (345584, I32))];
   R [F "intf"; F "intf"; E; F "rbyte"] 345608 I64 [D 128 272 (Some (345584, I32))];
   R [F "intf"; F "intf"; E; F "rpack"] 345616 I64 [D 128 272 (Some (345584, I32))];
   R [F "intf"; F "intf"; E; F "rerrs"] 345624 I64 [D 128 272 (Some (345584, I32))];
   R [F "intf"; F "intf"; E; F "rdrop"] 345632 I64 [D 128 272 (Some (345584, I32))];
   R [F "intf"; F "intf"; E; F "rfifo"] 345640 I64 [D 128 272 (Some (345584, I32))];
   R [F "intf"; F "intf"; E; F "rframe"] 345648 I64 [D 128 272 (Some (345584, I32))];
   R [F "intf"; F "intf"; E; F "rcompr"] 345656 I64 [D 128 272 (Some (345584, I32))];
   R [F "intf"; F "intf"; E; F "rmultic"] 345664 I64 [D 128 272 (Some (345584, I32))];
   R [F "intf"; F "intf"; E; F "rfuture"; E] 345672 I64 [D 128 272 (Some (345584, I32)); D 4 8 None];
   R [F "intf"; F "intf"; E; F "sbyte"] 345704 I64 [D 128 272 (Some (345584, I32))];
   R [F "intf"; F "intf"; E; F "spack"] 345712 I64 [D 128 272 (Some (345584, I32))];
   R [F "intf"; F "intf"; E; F "serrs"] 345720 I64 [D 128 272 (Some (345584, I32))];
   R [F "intf"; F "intf"; E; F "sdrop"] 345728 I64 [D 128 272 (Some (345584, I32))];
   R [F "intf"; F "intf"; E; F "sfifo"] 345736 I64 [D 128 272 (Some (345584, I32))];
   R [F "intf"; F "intf"; E; F "scollis"] 345744 I64 [D 128 272 (Some (345584, I32))];
   R [F "intf"; F "intf"; E; F "scarrier"] 345752 I64 [D 128 272 (Some (345584, I32))];
   R [F "intf"; F "intf"; E; F "scompr"] 345760 I64 [D 128 272 (Some (345584, I32))];
   R [F "intf"; F "intf"; E; F "sfuture"; E] 345768 I64 [D 128 272 (Some (345584, I32)); D 4 8 None];
   R [F "intf"; F "intf"; E; F "type"] 345800 Chr [D 128 272 (Some (345584, I32))];
   R [F "intf"; F "intf"; E; F "speed"] 345808 I64 [D 128 272 (Some (345584, I32))];
   R [F "intf"; F "intf"; E; F "speedp"] 345816 I64 [D 128 272 (Some (345584, I32))];
   R [F "intf"; F "intf"; E; F "duplex"] 345824 Chr [D 128 272 (Some (345584, I32))];
   R [F "intf"; F "intf"; E; F "cfuture"; E] 345832 I64 [D 128 272 (Some (345584, I32)); D 4 8 None];
   R [F "memnuma"; F "nrnuma"] 380408 I64 [];
   R [F "memnuma"; F "numa"; E; F "frag"] 380416 F32 [D 1024 88 (Some (380408, I64))];
   R [F "memnuma"; F "numa"; E; F "totmem"] 380424 I64 [D 1024 88 (Some (380408, I64))];
   R [F "memnuma"; F "numa"; E; F "freemem"] 380432 I64 [D 1024 88 (Some (380408, I64))];
   R [F "memnuma"; F "numa"; E; F "filepage"] 380440 I64 [D 1024 88 (Some (380408, I64))];
   R [F "memnuma"; F "numa"; E; F "dirtymem"] 380448 I64 [D 1024 88 (Some (380408, I64))];
   R [F "memnuma"; F "numa"; E; F "slabmem"] 380456 I64 [D 1024 88 (Some (380408, I64))];
   R [F "memnuma"; F "numa"; E; F "slabreclaim"] 380464 I64 [D 1024 88 (Some (380408, I64))];
   R [F "memnuma"; F "numa"; E; F "active"] 380472 I64 [D 1024 88 (Some (380408, I64))];
   R [F "memnuma"; F "numa"; E; F "inactive"] 380480 I64 [D 1024 88 (Some (380408, I64))];
   R [F "memnuma"; F "numa"; E; F "shmem"] 380488 I64 [D 1024 88 (Some (380408, I64))];
   R [F "memnuma"; F "numa"; E; F "tothp"] 380496 I64 [D 1024 88 (Some (380408, I64))];
   R [F "cpunuma"; F "nrnuma"] 470528 I64 [];
   R [F "cpunuma"; F "numa"; E; F "nrcpu"] 470536 I64 [D 1024 80 (Some (470528, I64))];
   R [F "cpunuma"; F "numa"; E; F "stime"] 470544 I64 [D 1024 80 (Some (470528, I64))];
   R [F "cpunuma"; F "numa"; E; F "utime"] 470552 I64 [D 1024 80 (Some (470528, I64))];
   R [F "cpunuma"; F "numa"; E; F "ntime"] 470560 I64 [D 1024 80 (Some (470528, I64))];
   R [F "cpunuma"; F "numa"; E; F "itime"] 470568 I64 [D 1024 80 (Some (470528, I64))];
   R [F "cpunuma"; F "numa"; E; F "wtime"] 470576 I64 [D 1024 80 (Some (470528, I64))];
   R [F "cpunuma"; F "numa"; E; F "Itime"] 470584 I64 [D 1024 80 (Some (470528, I64))];
   R [F "cpunuma"; F "numa"; E; F "Stime"] 470592 I64 [D 1024 80 (Some (470528, I64))];
   R [F "cpunuma"; F "numa"; E; F "steal"] 470600 I64 [D 1024 80 (Some (470528, I64))];
   R [F "cpunuma"; F "numa"; E; F "guest"] 470608 I64 [D 1024 80 (Some (470528, I64))];
   R [F "dsk"; F "ndsk"] 552456 I32 [];
   R [F "dsk"; F "nmdd"] 552460 I32 [];
   R [F "dsk"; F "nlvm"] 552464 I32 [];
   R [F "dsk"; F "dsk"; E; F "name"] 552472 (Text 32) [D 1024 112 (Some (552456, I32))];
   R [F "dsk"; F "dsk"; E; F "nread"] 552504 I64 [D 1024 112 (Some (552456, I32))];
   R [F "dsk"; F "dsk"; E; F "nrsect"] 552512 I64 [D 1024 112 (Some (552456, I32))];
   R [F "dsk"; F "dsk"; E; F "nwrite"] 552520 I64 [D 1024 112 (Some (552456, I32))];
   R [F "dsk"; F "dsk"; E; F "nwsect"] 552528 I64 [D 1024 112 (Some (552456, I32))];
   R [F "dsk"; F "dsk"; E; F "io_ms"] 552536 I64 [D 1024 112 (Some (552456, I32))];
   R [F "dsk"; F "dsk"; E; F "avque"] 552544 I64 [D 1024 112 (Some (552456, I32))];
   R [F "dsk"; F "dsk"; E; F "ndisc"] 552552 I64 [D 1024 112 (Some (552456, I32))];
   R [F "dsk"; F "dsk"; E; F "ndsect"] 552560 I64 [D 1024 112 (Some (552456, I32))];
   R [F "dsk"; F "dsk"; E; F "cfuture"; E] 552568 I64 [D 1024 112 (Some (552456, I32)); D 2 8 None];
   R [F "dsk"; F "mdd"; E; F "name"] 667160 (Text 32) [D 256 112 (Some (552460, I32))];
   R [F "dsk"; F "mdd"; E; F "nread"] 667192 I64 [D 256 112 (Some (552460, I32))];
   R [F "dsk"; F "mdd"; E; F "nrsect"] 667200 I64 [D 256 112 (Some (552460, I32))];
   R [F "dsk"; F "mdd"; E; F "nwrite"] 667208 I64 [D 256 112 (Some (552460, I32))];
   R [F "dsk"; F "mdd"; E; F "nwsect"] 667216 I64 [D 256 112 (Some (552460, I32))];
   R [F "dsk"; F "mdd"; E; F "io_ms"] 667224 I64 [D 256 112 (Some (552460, I32))];
   R [F "dsk"; F "mdd"; E; F "avque"] 667232 I64 [D 256 112 (Some (552460, I32))];
   R [F "dsk"; F "mdd"; E; F "ndisc"] 667240 I64 [D 256 112 (Some (552460, I32))];
   R [F "dsk"; F "mdd"; E; F "ndsect"] 667248 I64 [D 256 112 (Some (552460, I32))];
   R [F "dsk"; F "mdd"; E; F "cfuture"; E] 667256 I64 [D 256 112 (Some (552460, I32)); D 2 8 None];
   R [F "dsk"; F "lvm"; E; F "name"] 695832 (Text 32) [D 2048 112 (Some (552464, I32))];
   R [F "dsk"; F "lvm"; E; F "nread"] 695864 I64 [D 2048 112 (Some (552464, I32))];
   R [F "dsk"; F "lvm"; E; F "nrsect"] 695872 I64 [D 2048 112 (Some (552464, I32))];
   R [F "dsk"; F "lvm"; E; F "nwrite"] 695880 I64 [D 2048 112 (Some (552464, I32))];
   R [F "dsk"; F "lvm"; E; F "nwsect"] 695888 I64 [D 2048 112 (Some (552464, I32))];
   R [F "dsk"; F "lvm"; E; F "io_ms"] 695896 I64 [D 2048 112 (Some (552464, I32))];
   R [F "dsk"; F "lvm"; E; F "avque"] 695904 I64 [D 2048 112 (Some (552464, I32))];
   R [F "dsk"; F "lvm"; E; F "ndisc"] 695912 I64 [D 2048 112 (Some (552464, I32))];
   R [F "dsk"; F "lvm"; E; F "ndsect"] 695920 I64 [D 2048 112 (Some (552464, I32))];
   R [F "dsk"; F "lvm"; E; F "cfuture"; E] 695928 I64 [D 2048 112 (Some (552464, I32)); D 2 8 None];
   R [F "nfs"; F "server"; F "netcnt"] 925208 I64 [];
   R [F "nfs"; F "server"; F "netudpcnt"] 925216 I64 [];
   R [F "nfs"; F "server"; F "nettcpcnt"] 925224 I64 [];
   R [F "nfs"; F "server"; F "nettcpcon"] 925232 I64 [];
   R [F "nfs"; F "server"; F "rpccnt"] 925240 I64 [];
   R [F "nfs"; F "server"; F "rpcbadfmt"] 925248 I64 [];
   R [F "nfs"; F "server"; F "rpcbadaut"] 925256 I64 [];
   R [F "nfs"; F "server"; F "rpcbadcln"] 925264 I64 [];
   R [F "nfs"; F "server"; F "rpcread"] 925272 I64 [];
   R [F "nfs"; F "server"; F "rpcwrite"] 925280 I64 [];
   R [F "nfs"; F "server"; F "rchits"] 925288 I64 [];
   R [F "nfs"; F "server"; F "rcmiss"] 925296 I64 [];
   R [F "nfs"; F "server"; F "rcnoca"] 925304 I64 [];
   R [F "nfs"; F "server"; F "nrbytes"] 925312 I64 [];
   R [F "nfs"; F "server"; F "nwbytes"] 925320 I64 [];
   R [F "nfs"; F "server"; F "future"; E] 925328 I64 [D 8 8 None];
   R [F "nfs"; F "client"; F "rpccnt"] 925392 I64 [];
   R [F "nfs"; F "client"; F "rpcretrans"] 925400 I64 [];
   R [F "nfs"; F "client"; F "rpcautrefresh"] 925408 I64 [];
   R [F "nfs"; F "client"; F "rpcread"] 925416 I64 [];
   R [F "nfs"; F "client"; F "rpcwrite"] 925424 I64 [];
   R [F "nfs"; F "client"; F "future"; E] 925432 I64 [D 8 8 None];
   R [F "nfs"; F "nfsmounts"; F "nrmounts"] 925496 I32 [];
   R [F "nfs"; F "nfsmounts"; F "nfsmnt"; E; F "mountdev"] 925504 (Text 128) [D 64 264 (Some (925496, I32))];
   R [F "nfs"; F "nfsmounts"; F "nfsmnt"; E; F "age"] 925632 I64 [D 64 264 (Some (925496, I32))];
   R [F "nfs"; F "nfsmounts"; F "nfsmnt"; E; F "bytesread"] 925640 I64 [D 64 264 (Some (925496, I32))];
   R [F "nfs"; F "nfsmounts"; F "nfsmnt"; E; F "byteswrite"] 925648 I64 [D 64 264 (Some (925496, I32))];
   R [F "nfs"; F "nfsmounts"; F "nfsmnt"; E; F "bytesdread"] 925656 I64 [D 64 264 (Some (925496, I32))];
   R [F "nfs"; F "nfsmounts"; F "nfsmnt"; E; F "bytesdwrite"] 925664 I64 [D 64 264 (Some (925496, I32))];
   R [F "nfs"; F "nfsmounts"; F "nfsmnt"; E; F "bytestotread"] 925672 I64 [D 64 264 (Some (925496, I32))];
   R [F "nfs"; F "nfsmounts"; F "nfsmnt"; E; F "bytestotwrite"] 925680 I64 [D 64 264 (Some (925496, I32))];
   R [F "nfs"; F "nfsmounts"; F "nfsmnt"; E; F "pagesmread"] 925688 I64 [D 64 264 (Some (925496, I32))];
   R [F "nfs"; F "nfsmounts"; F "nfsmnt"; E; F "pagesmwrite"] 925696 I64 [D 64 264 (Some (925496, I32))];
   R [F "nfs"; F "nfsmounts"; F "nfsmnt"; E; F "future"; E] 925704 I64 [D 64 264 (Some (925496, I32)); D 8 8 None];
   R [F "cfs"; F "nrcontainer"] 942400 I32 [];
   R [F "cfs"; F "cont"; E; F "ctid"] 942408 U64 [D 128 56 (Some (942400, I32))];
   R [F "cfs"; F "cont"; E; F "numproc"] 942416 U64 [D 128 56 (Some (942400, I32))];
   R [F "cfs"; F "cont"; E; F "system"] 942424 I64 [D 128 56 (Some (942400, I32))];
   R [F "cfs"; F "cont"; E; F "user"] 942432 I64 [D 128 56 (Some (942400, I32))];
   R [F "cfs"; F "cont"; E; F "nice"] 942440 I64 [D 128 56 (Some (942400, I32))];
   R [F "cfs"; F "cont"; E; F "uptime"] 942448 I64 [D 128 56 (Some (942400, I32))];
   R [F "cfs"; F "cont"; E; F "physpages"] 942456 I64 [D 128 56 (Some (942400, I32))];
   R [F "psi"; F "present"] 949576 Chr [];
   R [F "psi"; F "future"] 949577 (Text 3) [];
   R [F "psi"; F "cpusome"; F "avg10"] 949584 F32 [];
   R [F "psi"; F "cpusome"; F "avg60"] 949588 F32 [];
   R [F "psi"; F "cpusome"; F "avg300"] 949592 F32 [];
   R [F "psi"; F "cpusome"; F "total"] 949600 I64 [];
   R [F "psi"; F "memsome"; F "avg10"] 949608 F32 [];
   R [F "psi"; F "memsome"; F "avg60"] 949612 F32 [];
   R [F "psi"; F "memsome"; F "avg300"] 949616 F32 [];
   R [F "psi"; F "memsome"; F "total"] 949624 I64 [];
   R [F "psi"; F "memfull"; F "avg10"] 949632 F32 [];
   R [F "psi"; F "memfull"; F "avg60"] 949636 F32 [];
   R [F "psi"; F "memfull"; F "avg300"] 949640 F32 [];
   R [F "psi"; F "memfull"; F "total"] 949648 I64 [];
   R [F "psi"; F "iosome"; F "avg10"] 949656 F32 [];
   R [F "psi"; F "iosome"; F "avg60"] 949660 F32 [];
   R [F "psi"; F "iosome"; F "avg300"] 949664 F32 [];
   R [F "psi"; F "iosome"; F "total"] 949672 I64 [];
   R [F "psi"; F "iofull"; F "avg10"] 949680 F32 [];
   R [F "psi"; F "iofull"; F "avg60"] 949684 F32 [];
   R [F "psi"; F "iofull"; F "avg300"] 949688 F32 [];
   R [F "psi"; F "iofull"; F "total"] 949696 I64 [];
   R [F "gpu"; F "nrgpus"] 949704 I32 [];
   R [F "gpu"; F "gpu"; E; F "taskstats"] 949712 Chr [D 32 88 (Some (949704, I32))];
   R [F "gpu"; F "gpu"; E; F "nrprocs"] 949713 U8 [D 32 88 (Some (949704, I32))];
   R [F "gpu"; F "gpu"; E; F "type"] 949714 (Text 13) [D 32 88 (Some (949704, I32))];
   R [F "gpu"; F "gpu"; E; F "busid"] 949727 (Text 13) [D 32 88 (Some (949704, I32))];
   R [F "gpu"; F "gpu"; E; F "gpunr"] 949740 I32 [D 32 88 (Some (949704, I32))];
   R [F "gpu"; F "gpu"; E; F "gpupercnow"] 949744 I32 [D 32 88 (Some (949704, I32))];
   R [F "gpu"; F "gpu"; E; F "mempercnow"] 949748 I32 [D 32 88 (Some (949704, I32))];
   R [F "gpu"; F "gpu"; E; F "memtotnow"] 949752 I64 [D 32 88 (Some (949704, I32))];
   R [F "gpu"; F "gpu"; E; F "memusenow"] 949760 I64 [D 32 88 (Some (949704, I32))];
   R [F "gpu"; F "gpu"; E; F "samples"] 949768 I64 [D 32 88 (Some (949704, I32))];
   R [F "gpu"; F "gpu"; E; F "gpuperccum"] 949776 I64 [D 32 88 (Some (949704, I32))];
   R [F "gpu"; F "gpu"; E; F "memperccum"] 949784 I64 [D 32 88 (Some (949704, I32))];
   R [F "gpu"; F "gpu"; E; F "memusecum"] 949792 I64 [D 32 88 (Some (949704, I32))];
   R [F "ifb"; F "nrports"] 952528 I32 [];
   R [F "ifb"; F "ifb"; E; F "ibname"] 952536 (Text 12) [D 32 56 (Some (952528, I32))];
   R [F "ifb"; F "ifb"; E; F "portnr"] 952548 I16 [D 32 56 (Some (952528, I32))];
   R [F "ifb"; F "ifb"; E; F "lanes"] 952550 I16 [D 32 56 (Some (952528, I32))];
   R [F "ifb"; F "ifb"; E; F "rate"] 952552 I64 [D 32 56 (Some (952528, I32))];
   R [F "ifb"; F "ifb"; E; F "rcvb"] 952560 I64 [D 32 56 (Some (952528, I32))];
   R [F "ifb"; F "ifb"; E; F "sndb"] 952568 I64 [D 32 56 (Some (952528, I32))];
   R [F "ifb"; F "ifb"; E; F "rcvp"] 952576 I64 [D 32 56 (Some (952528, I32))];
   R [F "ifb"; F "ifb"; E; F "sndp"] 952584 I64 [D 32 56 (Some (952528, I32))];
   R [F "www"; F "accesses"] 954328 I64 [];
   R [F "www"; F "totkbytes"] 954336 I64 [];
   R [F "www"; F "uptime"] 954344 I64 [];
   R [F "www"; F "bworkers"] 954352 I32 [];
   R [F "www"; F "iworkers"] 954356 I32 []].

Definition header_2_8 : list row := [
   R [F "magic"] 0 U32 [];
   R [F "aversion"] 4 U16 [];
   R [F "future1"] 6 U16 [];
   R [F "future2"] 8 U16 [];
   R [F "rawheadlen"] 10 U16 [];
   R [F "rawreclen"] 12 U16 [];
   R [F "hertz"] 14 U16 [];
   R [F "pidwidth"] 16 U16 [];
   R [F "sfuture"; E] 18 U16 [D 5 2 None];
   R [F "sstatlen"] 28 U32 [];
   R [F "tstatlen"] 32 U32 [];
   R [F "utsname"; F "sysname"] 36 (Text 65) [];
   R [F "utsname"; F "nodename"] 101 (Text 65) [];
   R [F "utsname"; F "release"] 166 (Text 65) [];
   R [F "utsname"; F "version"] 231 (Text 65) [];
   R [F "utsname"; F "machine"] 296 (Text 65) [];
   R [F "utsname"; F "domain"] 361 (Text 65) [];
   R [F "cfuture"] 426 (Text 8) [];
   R [F "pagesize"] 436 U32 [];
   R [F "supportflags"] 440 I32 [];
   R [F "osrel"] 444 I32 [];
   R [F "osvers"] 448 I32 [];
   R [F "ossub"] 452 I32 [];
   R [F "ifuture"; E] 456 I32 [D 6 4 None]].

Definition record_2_8 : list row := [
   R [F "curtime"] 0 I64 [];
   R [F "flags"] 8 U16 [];
   R [F "ncgroups"] 10 U16 [];
   R [F "sfuture"; E] 12 U16 [D 2 2 None];
   R [F "scomplen"] 16 U32 [];
   R [F "pcomplen"] 20 U32 [];
   R [F "interval"] 24 U32 [];
   R [F "ndeviat"] 28 U32 [];
   R [F "nactproc"] 32 U32 [];
   R [F "ntask"] 36 U32 [];
   R [F "totproc"] 40 U32 [];
   R [F "totrun"] 44 U32 [];
   R [F "totslpi"] 48 U32 [];
   R [F "totslpu"] 52 U32 [];
   R [F "totzomb"] 56 U32 [];
   R [F "nexit"] 60 U32 [];
   R [F "noverflow"] 64 U32 [];
   R [F "totidle"] 68 U32 [];
   R [F "ccomplen"] 72 U32 [];
   R [F "coriglen"] 76 U32 [];
   R [F "ncgpids"] 80 U32 [];
   R [F "icomplen"] 84 U32 [];
   R [F "ifuture"] 88 U32 []].

Definition sstat_2_8 : list row := [
   R [F "cpu"; F "nrcpu"] 0 I64 [];
   R [F "cpu"; F "devint"] 8 I64 [];
   R [F "cpu"; F "csw"] 16 I64 [];
   R [F "cpu"; F "nprocs"] 24 I64 [];
   R [F "cpu"; F "lavg1"] 32 F32 [];
   R [F "cpu"; F "lavg5"] 36 F32 [];
   R [F "cpu"; F "lavg15"] 40 F32 [];
   R [F "cpu"; F "cfuture"; E] 48 I64 [D 4 8 None];
   R [F "cpu"; F "all"; F "cpunr"] 80 I32 [];
   R [F "cpu"; F "all"; F "stime"] 88 I64 [];
   R [F "cpu"; F "all"; F "utime"] 96 I64 [];
   R [F "cpu"; F "all"; F "ntime"] 104 I64 [];
   R [F "cpu"; F "all"; F "itime"] 112 I64 [];
   R [F "cpu"; F "all"; F "wtime"] 120 I64 [];
   R [F "cpu"; F "all"; F "Itime"] 128 I64 [];
   R [F "cpu"; F "all"; F "Stime"] 136 I64 [];
   R [F "cpu"; F "all"; F "steal"] 144 I64 [];
   R [F "cpu"; F "all"; F "guest"] 152 I64 [];
   R [F "cpu"; F "all"; F "freqcnt"; F "maxfreq"] 160 I64 [];
   R [F "cpu"; F "all"; F "freqcnt"; F "cnt"] 168 I64 [];
   R [F "cpu"; F "all"; F "freqcnt"; F "ticks"] 176 I64 [];
   R [F "cpu"; F "all"; F "instr"] 184 I64 [];
   R [F "cpu"; F "all"; F "cycle"] 192 I64 [];
   R [F "cpu"; F "all"; F "cfuture"; E] 200 I64 [D 6 8 None];
   R [F "cpu"; F "cpu"; E; F "cpunr"] 248 I32 [D 2048 168 (Some (0, I64))];
   R [F "cpu"; F "cpu"; E; F "stime"] 256 I64 [D 2048 168 (Some (0, I64))];
   R [F "cpu"; F "cpu"; E; F "utime"] 264 I64 [D 2048 168 (Some (0, I64))];
   R [F "cpu"; F "cpu"; E; F "ntime"] 272 I64 [D 2048 168 (Some (0, I64))];
   R [F "cpu"; F "cpu"; E; F "itime"] 280 I64 [D 2048 168 (Some (0, I64))];
   R [F "cpu"; F "cpu"; E; F "wtime"] 288 I64 [D 2048 168 (Some (0, I64))];
   R [F "cpu"; F "cpu"; E; F "Itime"] 296 I64 [D 2048 168 (Some (0, I64))];
   R [F "cpu"; F "cpu"; E; F "Stime"] 304 I64 [D 2048 168 (Some (0, I64))];
   R [F "cpu"; F "cpu"; E; F "steal"] 312 I64 [D 2048 168 (Some (0, I64))];
   R [F "cpu"; F "cpu"; E; F "guest"] 320 I64 [D 2048 168 (Some (0, I64))];
   R [F "cpu"; F "cpu"; E; F "freqcnt"; F "maxfreq"] 328 I64 [D 2048 168 (Some (0, I64))];
   R [F "cpu"; F "cpu"; E; F "freqcnt"; F "cnt"] 336 I64 [D 2048 168 (Some (0, I64))];
   R [F "cpu"; F "cpu"; E; F "freqcnt"; F "ticks"] 344 I64 [D 2048 168 (Some (0, I64))];
   R [F "cpu"; F "cpu"; E; F "instr"] 352 I64 [D 2048 168 (Some (0, I64))];
   R [F "cpu"; F "cpu"; E; F "cycle"] 360 I64 [D 2048 168 (Some (0, I64))];
   R [F "cpu"; F "cpu"; E; F "cfuture"; E] 368 I64 [D 2048 168 (Some (0, I64)); D 6 8 None];
   R [F "mem"; F "physmem"] 344312 I64 [];
   R [F "mem"; F "freemem"] 344320 I64 [];
   R [F "mem"; F "buffermem"] 344328 I64 [];
   R [F "mem"; F "slabmem"] 344336 I64 [];
   R [F "mem"; F "cachemem"] 344344 I64 [];
   R [F "mem"; F "cachedrt"] 344352 I64 [];
   R [F "mem"; F "totswap"] 344360 I64 [];
   R [F "mem"; F "freeswap"] 344368 I64 [];
   R [F "mem"; F "pgscans"] 344376 I64 [];
   R [F "mem"; F "pgsteal"] 344384 I64 [];
   R [F "mem"; F "allocstall"] 344392 I64 [];
   R [F "mem"; F "swouts"] 344400 I64 [];
   R [F "mem"; F "swins"] 344408 I64 [];
   R [F "mem"; F "tcpsock"] 344416 I64 [];
   R [F "mem"; F "udpsock"] 344424 I64 [];
   R [F "mem"; F "commitlim"] 344432 I64 [];
   R [F "mem"; F "committed"] 344440 I64 [];
   R [F "mem"; F "shmem"] 344448 I64 [];
   R [F "mem"; F "shmrss"] 344456 I64 [];
   R [F "mem"; F "shmswp"] 344464 I64 [];
   R [F "mem"; F "slabreclaim"] 344472 I64 [];
   R [F "mem"; F "tothugepage"] 344480 I64 [];
   R [F "mem"; F "freehugepage"] 344488 I64 [];
   R [F "mem"; F "hugepagesz"] 344496 I64 [];
   R [F "mem"; F "vmwballoon"] 344504 I64 [];
   R [F "mem"; F "zfsarcsize"] 344512 I64 [];
   R [F "mem"; F "swapcached"] 344520 I64 [];
   R [F "mem"; F "ksmsharing"] 344528 I64 [];
   R [F "mem"; F "ksmshared"] 344536 I64 [];
   R [F "mem"; F "zswstored"] 344544 I64 [];
   R [F "mem"; F "zswtotpool"] 344552 I64 [];
   R [F "mem"; F "oomkills"] 344560 I64 [];
   R [F "mem"; F "compactstall"] 344568 I64 [];
   R [F "mem"; F "pgmigrate"] 344576 I64 [];
   R [F "mem"; F "numamigrate"] 344584 I64 [];
   R [F "mem"; F "pgouts"] 344592 I64 [];
   R [F "mem"; F "pgins"] 344600 I64 [];
   R [F "mem"; F "pagetables"] 344608 I64 [];
   R [F "mem"; F "cfuture"; E] 344616 I64 [D 4 8 None];
   R [F "net"; F "ipv4"; F "Forwarding"] 344648 I64 [];
   R [F "net"; F "ipv4"; F "DefaultTTL"] 344656 I64 [];
   R [F "net"; F "ipv4"; F "InReceives"] 344664 I64 [];
   R [F "net"; F "ipv4"; F "InHdrErrors"] 344672 I64 [];
   R [F "net"; F "ipv4"; F "InAddrErrors"] 344680 I64 [];
   R [F "net"; F "ipv4"; F "ForwDatagrams"] 344688 I64 [];
   R [F "net"; F "ipv4"; F "InUnknownProtos"] 344696 I64 [];
   R [F "net"; F "ipv4"; F "InDiscards"] 344704 I64 [];
   R [F "net"; F "ipv4"; F "InDelivers"] 344712 I64 [];
   R [F "net"; F "ipv4"; F "OutRequests"] 344720 I64 [];
   R [F "net"; F "ipv4"; F "OutDiscards"] 344728 I64 [];
   R [F "net"; F "ipv4"; F "OutNoRoutes"] 344736 I64 [];
   R [F "net"; F "ipv4"; F "ReasmTimeout"] 344744 I64 [];
   R [F "net"; F "ipv4"; F "ReasmReqds"] 344752 I64 [];
   R [F "net"; F "ipv4"; F "ReasmOKs"] 344760 I64 [];
   R [F "net"; F "ipv4"; F "ReasmFails"] 344768 I64 [];
   R [F "net"; F "ipv4"; F "FragOKs"] 344776 I64 [];
   R [F "net"; F "ipv4"; F "FragFails"] 344784 I64 [];
   R [F "net"; F "ipv4"; F "FragCreates"] 344792 I64 [];
   R [F "net"; F "icmpv4"; F "InMsgs"] 344800 I64 [];
   R [F "net"; F "icmpv4"; F "InErrors"] 344808 I64 [];
   R [F "net"; F "icmpv4"; F "InCsumErrors"] 344816 I64 [];
   R [F "net"; F "icmpv4"; F "InDestUnreachs"] 344824 I64 [];
   R [F "net"; F "icmpv4"; F "InTimeExcds"] 344832 I64 [];
   R [F "net"; F "icmpv4"; F "InParmProbs"] 344840 I64 [];
   R [F "net"; F "icmpv4"; F "InSrcQuenchs"] 344848 I64 [];
   R [F "net"; F "icmpv4"; F "InRedirects"] 344856 I64 [];
   R [F "net"; F "icmpv4"; F "InEchos"] 344864 I64 [];
   R [F "net"; F "icmpv4"; F "InEchoReps"] 344872 I64 [];
   R [F "net"; F "icmpv4"; F "InTimestamps"] 344880 I64 [];
   R [F "net"; F "icmpv4"; F "InTimestampReps"] 344888 I64 [];
   R [F "net"; F "icmpv4"; F "InAddrMasks"] 344896 I64 [];
   R [F "net"; F "icmpv4"; F "InAddrMaskReps"] 344904 I64 [];
   R [F "net"; F "icmpv4"; F "OutMsgs"] 344912 I64 [];
   R [F "net"; F "icmpv4"; F "OutErrors"] 344920 I64 [];
   R [F "net"; F "icmpv4"; F "OutDestUnreachs"] 344928 I64 [];
   R [F "net"; F "icmpv4"; F "OutTimeExcds"] 344936 I64 [];
   R [F "net"; F "icmpv4"; F "OutParmProbs"] 344944 I64 [];
   R [F "net"; F "icmpv4"; F "OutSrcQuenchs"] 344952 I64 [];
   R [F "net"; F "icmpv4"; F "OutRedirects"] 344960 I64 [];
   R [F "net"; F "icmpv4"; F "OutEchos"] 344968 I64 [];
   R [F "net"; F "icmpv4"; F "OutEchoReps"] 344976 I64 [];
   R [F "net"; F "icmpv4"; F "OutTimestamps"] 344984 I64 [];
   R [F "net"; F "icmpv4"; F "OutTimestampReps"] 344992 I64 [];
   R [F "net"; F "icmpv4"; F "OutAddrMasks"] 345000 I64 [];
   R [F "net"; F "icmpv4"; F "OutAddrMaskReps"] 345008 I64 [];
   R [F "net"; F "udpv4"; F "InDatagrams"] 345016 I64 [];
   R [F "net"; F "udpv4"; F "NoPorts"] 345024 I64 [];
   R [F "net"; F "udpv4"; F "InErrors"] 345032 I64 [];
   R [F "net"; F "udpv4"; F "OutDatagrams"] 345040 I64 [];
   R [F "net"; F "ipv6"; F "Ip6InReceives"] 345048 I64 [];
   R [F "net"; F "ipv6"; F "Ip6InHdrErrors"] 345056 I64 [];
   R [F "net"; F "ipv6"; F "Ip6InTooBigErrors"] 345064 I64 [];
   R [F "net"; F "ipv6"; F "Ip6InNoRoutes"] 345072 I64 [];
   R [F "net"; F "ipv6"; F "Ip6InAddrErrors"] 345080 I64 [];
   R [F "net"; F "ipv6"; F "Ip6InUnknownProtos"] 345088 I64 [];
   R [F "net"; F "ipv6"; F "Ip6InTruncatedPkts"] 345096 I64 [];
   R [F "net"; F "ipv6"; F "Ip6InDiscards"] 345104 I64 [];
   R [F "net"; F "ipv6"; F "Ip6InDelivers"] 345112 I64 [];
   R [F "net"; F "ipv6"; F "Ip6OutForwDatagrams"] 345120 I64 [];
   R [F "net"; F "ipv6"; F "Ip6OutRequests"] 345128 I64 [];
   R [F "net"; F "ipv6"; F "Ip6OutDiscards"] 345136 I64 [];
   R [F "net"; F "ipv6"; F "Ip6OutNoRoutes"] 345144 I64 [];
   R [F "net"; F "ipv6"; F "Ip6ReasmTimeout"] 345152 I64 [];
   R [F "net"; F "ipv6"; F "Ip6ReasmReqds"] 345160 I64 [];
   R [F "net"; F "ipv6"; F "Ip6ReasmOKs"] 345168 I64 [];
   R [F "net"; F "ipv6"; F "Ip6ReasmFails"] 345176 I64 [];
   R [F "net"; F "ipv6"; F "Ip6FragOKs"] 345184 I64 [];
   R [F "net"; F "ipv6"; F "Ip6FragFails"] 345192 I64 [];
   R [F "net"; F "ipv6"; F "Ip6FragCreates"] 345200 I64 [];
   R [F "net"; F "ipv6"; F "Ip6InMcastPkts"] 345208 I64 [];
   R [F "net"; F "ipv6"; F "Ip6OutMcastPkts"] 345216 I64 [];
   R [F "net"; F "icmpv6"; F "Icmp6InMsgs"] 345224 I64 [];
   R [F "net"; F "icmpv6"; F "Icmp6InErrors"] 345232 I64 [];
   R [F "net"; F "icmpv6"; F "Icmp6InDestUnreachs"] 345240 I64 [];
   R [F "net"; F "icmpv6"; F "Icmp6InPktTooBigs"] 345248 I64 [];
   R [F "net"; F "icmpv6"; F "Icmp6InTimeExcds"] 345256 I64 [];
   R [F "net"; F "icmpv6"; F "Icmp6InParmProblems"] 345264 I64 [];
   R [F "net"; F "icmpv6"; F "Icmp6InEchos"] 345272 I64 [];
   R [F "net"; F "icmpv6"; F "Icmp6InEchoReplies"] 345280 I64 [];
   R [F "net"; F "icmpv6"; F "Icmp6InGroupMembQueries"] 345288 I64 [];
   R [F "net"; F "icmpv6"; F "Icmp6InGroupMembResponses"] 345296 I64 [];
   R [F "net"; F "icmpv6"; F "Icmp6InGroupMembReductions"] 345304 I64 [];
   R [F "net"; F "icmpv6"; F "Icmp6InRouterSolicits"] 345312 I64 [];
   R [F "net"; F "icmpv6"; F "Icmp6InRouterAdvertisements"] 345320 I64 [];
   R [F "net"; F "icmpv6"; F "Icmp6InNeighborSolicits"] 345328 I64 [];
   R [F "net"; F "icmpv6"; F "Icmp6InNeighborAdvertisements"] 345336 I64 [];
   R [F "net"; F "icmpv6"; F "Icmp6InRedirects"] 345344 I64 [];
   R [F "net"; F "icmpv6"; F "Icmp6OutMsgs"] 345352 I64 [];
   R [F "net"; F "icmpv6"; F "Icmp6OutDestUnreachs"] 345360 I64 [];
   R [F "net"; F "icmpv6"; F "Icmp6OutPktTooBigs"] 345368 I64 [];
   R [F "net"; F "icmpv6"; F "Icmp6OutTimeExcds"] 345376 I64 [];
   R [F "net"; F "icmpv6"; F "Icmp6OutParmProblems"] 345384 I64 [];
   R [F "net"; F "icmpv6"; F "Icmp6OutEchoReplies"] 345392 I64 [];
   R [F "net"; F "icmpv6"; F "Icmp6OutRouterSolicits"] 345400 I64 [];
   R [F "net"; F "icmpv6"; F "Icmp6OutNeighborSolicits"] 345408 I64 [];
   R [F "net"; F "icmpv6"; F "Icmp6OutNeighborAdvertisements"] 345416 I64 [];
   R [F "net"; F "icmpv6"; F "Icmp6OutRedirects"] 345424 I64 [];
   R [F "net"; F "icmpv6"; F "Icmp6OutGroupMembResponses"] 345432 I64 [];
   R [F "net"; F "icmpv6"; F "Icmp6OutGroupMembReductions"] 345440 I64 [];
   R [F "net"; F "udpv6"; F "Udp6InDatagrams"] 345448 I64 [];
   R [F "net"; F "udpv6"; F "Udp6NoPorts"] 345456 I64 [];
   R [F "net"; F "udpv6"; F "Udp6InErrors"] 345464 I64 [];
   R [F "net"; F "udpv6"; F "Udp6OutDatagrams"] 345472 I64 [];
   R [F "net"; F "tcp"; F "RtoAlgorithm"] 345480 I64 [];
   R [F "net"; F "tcp"; F "RtoMin"] 345488 I64 [];
   R [F "net"; F "tcp"; F "RtoMax"] 345496 I64 [];
   R [F "net"; F "tcp"; F "MaxConn"] 345504 I64 [];
   R [F "net"; F "tcp"; F "ActiveOpens"] 345512 I64 [];
   R [F "net"; F "tcp"; F "PassiveOpens"] 345520 I64 [];
   R [F "net"; F "tcp"; F "AttemptFails"] 345528 I64 [];
   R [F "net"; F "tcp"; F "EstabResets"] 345536 I64 [];
   R [F "net"; F "tcp"; F "CurrEstab"] 345544 I64 [];
   R [F "net"; F "tcp"; F "InSegs"] 345552 I64 [];
   R [F "net"; F "tcp"; F "OutSegs"] 345560 I64 [];
   R [F "net"; F "tcp"; F "RetransSegs"] 345568 I64 [];
   R [F "net"; F "tcp"; F "InErrs"] 345576 I64 [];
   R [F "net"; F "tcp"; F "OutRsts"] 345584 I64 [];
   R [F "intf"; F "nrintf"] 345592 I32 [];
   R [F "intf"; F "intf"; E; F "name"] 345600 (Text 16) [D 128 272 (Some (345592, I32))];
   R [F "intf"; F "intf"; E; F "rbyte"] 345616 I64 [D 128 272 (Some (345592, I32))];
   R [F "intf"; F "intf"; E; F "rpack"] 345624 I64 [D 128 272 (Some (345592, I32))];
   R [F "intf"; F "intf"; E; F "rerrs"] 345632 I64 [D 128 272 (Some (345592, I32))];
   R [F "intf"; F "intf"; E; F "rdrop"] 345640 I64 [D 128 272 (Some (345592, I32))];
   R [F "intf"; F "intf"; E; F "rfifo"] 345648 I64 [D 128 272 (Some (345592, I32))];
   R [F "intf"; F "intf"; E; F "rframe"] 345656 I64 [D 128 272 (Some (345592, I32))];
   R [F "intf"; F "intf"; E; F "rcompr"] 345664 I64 [D 128 272 (Some (345592, I32))];
   R [F "intf"; F "intf"; E; F "rmultic"] 345672 I64 [D 128 272 (Some (345592, I32))];
   R [F "intf"; F "intf"; E; F "rfuture"; E] 345680 I64 [D 128 272 (Some (345592, I32)); D 4 8 None];
   R [F "intf"; F "intf"; E; F "sbyte"] 345712 I64 [D 128 272 (Some (345592, I32))];
   R [F "intf"; F "intf"; E; F "spack"] 345720 I64 [D 128 272 (Some (345592, I32))];
   R [F "intf"; F "intf"; E; F "serrs"] 345728 I64 [D 128 272 (Some (345592, I32))];
   R [F "intf"; F "intf"; E; F "sdrop"] 345736 I64 [D 128 272 (Some (345592, I32))];
   R [F "intf"; F "intf"; E; F "sfifo"] 345744 I64 [D 128 272 (Some (345592, I32))];
   R [F "intf"; F "intf"; E; F "scollis"] 345752 I64 [D 128 272 (Some (345592, I32))];
   R [F "intf"; F "intf"; E; F "scarrier"] 345760 I64 [D 128 272 (Some (345592, I32))];
   R [F "intf"; F "intf"; E; F "scompr"] 345768 I64 [D 128 272 (Some (345592, I32))];
   R [F "intf"; F "intf"; E; F "sfuture"; E] 345776 I64 [D 128 272 (Some (345592, I32)); D 4 8 None];
   R [F "intf"; F "intf"; E; F "type"] 345808 Chr [D 128 272 (Some (345592, I32))];
   R [F "intf"; F "intf"; E; F "speed"] 345816 I64 [D 128 272 (Some (345592, I32))];
   R [F "intf"; F "intf"; E; F "speedp"] 345824 I64 [D 128 272 (Some (345592, I32))];
   R [F "intf"; F "intf"; E; F "duplex"] 345832 Chr [D 128 272 (Some (345592, I32))];
   R [F "intf"; F "intf"; E; F "cfuture"; E] 345840 I64 [D 128 272 (Some (345592, I32)); D 4 8 None];
   R [F "memnuma"; F "nrnuma"] 380416 I64 [];
   R [F "memnuma"; F "numa"; E; F "numanr"] 380424 I32 [D 1024 88 (Some (380416, I64))];
   R [F "memnuma"; F "numa"; E; F "frag"] 380428 F32 [D 1024 88 (Some (380416, I64))];
   R [F "memnuma"; F "numa"; E; F "totmem"] 380432 I64 [D 1024 88 (Some (380416, I64))];
   R [F "memnuma"; F "numa"; E; F "freemem"] 380440 I64 [D 1024 88 (Some (380416, I64))];
   R [F "memnuma"; F "numa"; E; F "filepage"] 380448 I64 [D 1024 88 (Some (380416, I64))];
   R [F "memnuma"; F "numa"; E; F "dirtymem"] 380456 I64 [D 1024 88 (Some (380416, I64))];
   R [F "memnuma"; F "numa"; E; F "slabmem"] 380464 I64 [D 1024 88 (Some (380416, I64))];
   R [F "memnuma"; F "numa"; E; F "slabreclaim"] 380472 I64 [D 1024 88 (Some (380416, I64))];
   R [F "memnuma"; F "numa"; E; F "active"] 380480 I64 [D 1024 88 (Some (380416, I64))];
   R [F "memnuma"; F "numa"; E; F "inactive"] 380488 I64 [D 1024 88 (Some (380416, I64))];
   R [F "memnuma"; F "numa"; E; F "shmem"] 380496 I64 [D 1024 88 (Some (380416, I64))];
   R [F "memnuma"; F "numa"; E; F "tothp"] 380504 I64 [D 1024 88 (Some (380416, I64))];
   R [F "cpunuma"; F "nrnuma"] 470536 I64 [];
   R [F "cpunuma"; F "numa"; E; F "numanr"] 470544 I32 [D 1024 88 (Some (470536, I64))];
   R [F "cpunuma"; F "numa"; E; F "nrcpu"] 470552 I64 [D 1024 88 (Some (470536, I64))];
   R [F "cpunuma"; F "numa"; E; F "stime"] 470560 I64 [D 1024 88 (Some (470536, I64))];
   R [F "cpunuma"; F "numa"; E; F "utime"] 470568 I64 [D 1024 88 (Some (470536, I64))];
   R [F "cpunuma"; F "numa"; E; F "ntime"] 470576 I64 [D 1024 88 (Some (470536, I64))];
   R [F "cpunuma"; F "numa"; E; F "itime"] 470584 I64 [D 1024 88 (Some (470536, I64))];
   R [F "cpunuma"; F "numa"; E; F "wtime"] 470592 I64 [D 1024 88 (Some (470536, I64))];
   R [F "cpunuma"; F "numa"; E; F "Itime"] 470600 I64 [D 1024 88 (Some (470536, I64))];
   R [F "cpunuma"; F "numa"; E; F "Stime"] 470608 I64 [D 1024 88 (Some (470536, I64))];
   R [F "cpunuma"; F "numa"; E; F "steal"] 470616 I64 [D 1024 88 (Some (470536, I64))];
   R [F "cpunuma"; F "numa"; E; F "guest"] 470624 I64 [D 1024 88 (Some (470536, I64))];
   R [F "dsk"; F "ndsk"] 560656 I32 [];
   R [F "dsk"; F "nmdd"] 560660 I32 [];
   R [F "dsk"; F "nlvm"] 560664 I32 [];
   R [F "dsk"; F "dsk"; E; F "name"] 560672 (Text 32) [D 1024 128 (Some (560656, I32))];
   R [F "dsk"; F "dsk"; E; F "nread"] 560704 I64 [D 1024 128 (Some (560656, I32))];
   R [F "dsk"; F "dsk"; E; F "nrsect"] 560712 I64 [D 1024 128 (Some (560656, I32))];
   R [F "dsk"; F "dsk"; E; F "nwrite"] 560720 I64 [D 1024 128 (Some (560656, I32))];
   R [F "dsk"; F "dsk"; E; F "nwsect"] 560728 I64 [D 1024 128 (Some (560656, I32))];
   R [F "dsk"; F "dsk"; E; F "io_ms"] 560736 I64 [D 1024 128 (Some (560656, I32))];
   R [F "dsk"; F "dsk"; E; F "avque"] 560744 I64 [D 1024 128 (Some (560656, I32))];
   R [F "dsk"; F "dsk"; E; F "ndisc"] 560752 I64 [D 1024 128 (Some (560656, I32))];
   R [F "dsk"; F "dsk"; E; F "ndsect"] 560760 I64 [D 1024 128 (Some (560656, I32))];
   R [F "dsk"; F "dsk"; E; F "inflight"] 560768 I64 [D 1024 128 (Some (560656, I32))];
   R [F "dsk"; F "dsk"; E; F "cfuture"; E] 560776 I64 [D 1024 128 (Some (560656, I32)); D 3 8 None];
   R [F "dsk"; F "mdd"; E; F "name"] 691744 (Text 32) [D 256 128 (Some (560660, I32))];
   R [F "dsk"; F "mdd"; E; F "nread"] 691776 I64 [D 256 128 (Some (560660, I32))];
   R [F "dsk"; F "mdd"; E; F "nrsect"] 691784 I64 [D 256 128 (Some (560660, I32))];
   R [F "dsk"; F "mdd"; E; F "nwrite"] 691792 I64 [D 256 128 (Some (560660, I32))];
   R [F "dsk"; F "mdd"; E; F "nwsect"] 691800 I64 [D 256 128 (Some (560660, I32))];
   R [F "dsk"; F "mdd"; E; F "io_ms"] 691808 I64 [D 256 128 (Some (560660, I32))];
   R [F "dsk"; F "mdd"; E; F "avque"] 691816 I64 [D 256 128 (Some (560660, I32))];
   R [F "dsk"; F "mdd"; E; F "ndisc"] 691824 I64 [D 256 128 (Some (560660, I32))];
   R [F "dsk"; F "mdd"; E; F "ndsect"] 691832 I64 [D 256 128 (Some (560660, I32))];
   R [F "dsk"; F "mdd"; E; F "inflight"] 691840 I64 [D 256 128 (Some (560660, I32))];
   R [F "dsk"; F "mdd"; E; F "cfuture"; E] 691848 I64 [D 256 128 (Some (560660, I32)); D 3 8 None];
   R [F "dsk"; F "lvm"; E; F "name"] 724512 (Text 32) [D 2048 128 (Some (560664, I32))];
   R [F "dsk"; F "lvm"; E; F "nread"] 724544 I64 [D 2048 128 (Some (560664, I32))];
   R [F "dsk"; F "lvm"; E; F "nrsect"] 724552 I64 [D 2048 128 (Some (560664, I32))];
   R [F "dsk"; F "lvm"; E; F "nwrite"] 724560 I64 [D 2048 128 (Some (560664, I32))];
   R [F "dsk"; F "lvm"; E; F "nwsect"] 724568 I64 [D 2048 128 (Some (560664, I32))];
   R [F "dsk"; F "lvm"; E; F "io_ms"] 724576 I64 [D 2048 128 (Some (560664, I32))];
   R [F "dsk"; F "lvm"; E; F "avque"] 724584 I64 [D 2048 128 (Some (560664, I32))];
   R [F "dsk"; F "lvm"; E; F "ndisc"] 724592 I64 [D 2048 128 (Some (560664, I32))];
   R [F "dsk"; F "lvm"; E; F "ndsect"] 724600 I64 [D 2048 128 (Some (560664, I32))];
   R [F "dsk"; F "lvm"; E; F "inflight"] 724608 I64 [D 2048 128 (Some (560664, I32))];
   R [F "dsk"; F "lvm"; E; F "cfuture"; E] 724616 I64 [D 2048 128 (Some (560664, I32)); D 3 8 None];
   R [F "nfs"; F "server"; F "netcnt"] 986656 I64 [];
   R [F "nfs"; F "server"; F "netudpcnt"] 986664 I64 [];
   R [F "nfs"; F "server"; F "nettcpcnt"] 986672 I64 [];
   R [F "nfs"; F "server"; F "nettcpcon"] 986680 I64 [];
   R [F "nfs"; F "server"; F "rpccnt"] 986688 I64 [];
   R [F "nfs"; F "server"; F "rpcbadfmt"] 986696 I64 [];
   R [F "nfs"; F "server"; F "rpcbadaut"] 986704 I64 [];
   R [F "nfs"; F "server"; F "rpcbadcln"] 986712 I64 [];
   R [F "nfs"; F "server"; F "rpcread"] 986720 I64 [];
   R [F "nfs"; F "server"; F "rpcwrite"] 986728 I64 [];
   R [F "nfs"; F "server"; F "rchits"] 986736 I64 [];
   R [F "nfs"; F "server"; F "rcmiss"] 986744 I64 [];
   R [F "nfs"; F "server"; F "rcnoca"] 986752 I64 [];
   R [F "nfs"; F "server"; F "nrbytes"] 986760 I64 [];
   R [F "nfs"; F "server"; F "nwbytes"] 986768 I64 [];
   R [F "nfs"; F "server"; F "future"; E] 986776 I64 [D 8 8 None];
   R [F "nfs"; F "client"; F "rpccnt"] 986840 I64 [];
   R [F "nfs"; F "client"; F "rpcretrans"] 986848 I64 [];
   R [F "nfs"; F "client"; F "rpcautrefresh"] 986856 I64 [];
   R [F "nfs"; F "client"; F "rpcread"] 986864 I64 [];
   R [F "nfs"; F "client"; F "rpcwrite"] 986872 I64 [];
   R [F "nfs"; F "client"; F "future"; E] 986880 I64 [D 8 8 None];
   R [F "nfs"; F "nfsmounts"; F "nrmounts"] 986944 I32 [];
   R [F "nfs"; F "nfsmounts"; F "nfsmnt"; E; F "mountdev"] 986952 (Text 128) [D 64 264 (Some (986944, I32))];
   R [F "nfs"; F "nfsmounts"; F "nfsmnt"; E; F "age"] 987080 I64 [D 64 264 (Some (986944, I32))];
   R [F "nfs"; F "nfsmounts"; F "nfsmnt"; E; F "bytesread"] 987088 I64 [D 64 264 (Some (986944, I32))];
   R [F "nfs"; F "nfsmounts"; F "nfsmnt"; E; F "byteswrite"] 987096 I64 [D 64 264 (Some (986944, I32))];
   R [F "nfs"; F "nfsmounts"; F "nfsmnt"; E; F "bytesdread"] 987104 I64 [D 64 264 (Some (986944, I32))];
   R [F "nfs"; F "nfsmounts"; F "nfsmnt"; E; F "bytesdwrite"] 987112 I64 [D 64 264 (Some (986944, I32))];
   R [F "nfs"; F "nfsmounts"; F "nfsmnt"; E; F "bytestotread"] 987120 I64 [D 64 264 (Some (986944, I32))];
   R [F "nfs"; F "nfsmounts"; F "nfsmnt"; E; F "bytestotwrite"] 987128 I64 [D 64 264 (Some (986944, I32))];
   R [F "nfs"; F "nfsmounts"; F "nfsmnt"; E; F "pagesmread"] 987136 I64 [D 64 264 (Some (986944, I32))];
   R [F "nfs"; F "nfsmounts"; F "nfsmnt"; E; F "pagesmwrite"] 987144 I64 [D 64 264 (Some (986944, I32))];
   R [F "nfs"; F "nfsmounts"; F "nfsmnt"; E; F "future"; E] 987152 I64 [D 64 264 (Some (986944, I32)); D 8 8 None];
   R [F "cfs"; F "nrcontainer"] 1003848 I32 [];
   R [F "cfs"; F "cont"; E; F "ctid"] 1003856 U64 [D 128 56 (Some (1003848, I32))];
   R [F "cfs"; F "cont"; E; F "numproc"] 1003864 U64 [D 128 56 (Some (1003848, I32))];
   R [F "cfs"; F "cont"; E; F "system"] 1003872 I64 [D 128 56 (Some (1003848, I32))];
   R [F "cfs"; F "cont"; E; F "user"] 1003880 I64 [D 128 56 (Some (1003848, I32))];
   R [F "cfs"; F "cont"; E; F "nice"] 1003888 I64 [D 128 56 (Some (1003848, I32))];
   R [F "cfs"; F "cont"; E; F "uptime"] 1003896 I64 [D 128 56 (Some (1003848, I32))];
   R [F "cfs"; F "cont"; E; F "physpages"] 1003904 I64 [D 128 56 (Some (1003848, I32))];
   R [F "psi"; F "present"] 1011024 Chr [];
   R [F "psi"; F "future"] 1011025 (Text 3) [];
   R [F "psi"; F "cpusome"; F "avg10"] 1011032 F32 [];
   R [F "psi"; F "cpusome"; F "avg60"] 1011036 F32 [];
   R [F "psi"; F "cpusome"; F "avg300"] 1011040 F32 [];
   R [F "psi"; F "cpusome"; F "total"] 1011048 I64 [];
   R [F "psi"; F "memsome"; F "avg10"] 1011056 F32 [];
   R [F "psi"; F "memsome"; F "avg60"] 1011060 F32 [];
   R [F "psi"; F "memsome"; F "avg300"] 1011064 F32 [];
   R [F "psi"; F "memsome"; F "total"] 1011072 I64 [];
   R [F "psi"; F "memfull"; F "avg10"] 1011080 F32 [];
   R [F "psi"; F "memfull"; F "avg60"] 1011084 F32 [];
   R [F "psi"; F "memfull"; F "avg300"] 1011088 F32 [];
   R [F "psi"; F "memfull"; F "total"] 1011096 I64 [];
   R [F "psi"; F "iosome"; F "avg10"] 1011104 F32 [];
   R [F "psi"; F "iosome"; F "avg60"] 1011108 F32 [];
   R [F "psi"; F "iosome"; F "avg300"] 1011112 F32 [];
   R [F "psi"; F "iosome"; F "total"] 1011120 I64 [];
   R [F "psi"; F "iofull"; F "avg10"] 1011128 F32 [];
   R [F "psi"; F "iofull"; F "avg60"] 1011132 F32 [];
   R [F "psi"; F "iofull"; F "avg300"] 1011136 F32 [];
   R [F "psi"; F "iofull"; F "total"] 1011144 I64 [];
   R [F "gpu"; F "nrgpus"] 1011152 I32 [];
   R [F "gpu"; F "gpu"; E; F "taskstats"] 1011160 Chr [D 32 88 (Some (1011152, I32))];
   R [F "gpu"; F "gpu"; E; F "nrprocs"] 1011161 U8 [D 32 88 (Some (1011152, I32))];
   R [F "gpu"; F "gpu"; E; F "type"] 1011162 (Text 13) [D 32 88 (Some (1011152, I32))];
   R [F "gpu"; F "gpu"; E; F "busid"] 1011175 (Text 13) [D 32 88 (Some (1011152, I32))];
   R [F "gpu"; F "gpu"; E; F "gpunr"] 1011188 I32 [D 32 88 (Some (1011152, I32))];
   R [F "gpu"; F "gpu"; E; F "gpupercnow"] 1011192 I32 [D 32 88 (Some (1011152, I32))];
   R [F "gpu"; F "gpu"; E; F "mempercnow"] 1011196 I32 [D 32 88 (Some (1011152, I32))];
   R [F "gpu"; F "gpu"; E; F "memtotnow"] 1011200 I64 [D 32 88 (Some (1011152, I32))];
   R [F "gpu"; F "gpu"; E; F "memusenow"] 1011208 I64 [D 32 88 (Some (1011152, I32))];
   R [F "gpu"; F "gpu"; E; F "samples"] 1011216 I64 [D 32 88 (Some (1011152, I32))];
   R [F "gpu"; F "gpu"; E; F "gpuperccum"] 1011224 I64 [D 32 88 (Some (1011152, I32))];
   R [F "gpu"; F "gpu"; E; F "memperccum"] 1011232 I64 [D 32 88 (Some (1011152, I32))];
   R [F "gpu"; F "gpu"; E; F "memusecum"] 1011240 I64 [D 32 88 (Some (1011152, I32))];
   R [F "ifb"; F "nrports"] 1013976 I32 [];
   R [F "ifb"; F "ifb"; E; F "ibname"] 1013984 (Text 12) [D 32 56 (Some (1013976, I32))];
   R [F "ifb"; F "ifb"; E; F "portnr"] 1013996 I16 [D 32 56 (Some (1013976, I32))];
   R [F "ifb"; F "ifb"; E; F "lanes"] 1013998 I16 [D 32 56 (Some (1013976, I32))];
   R [F "ifb"; F "ifb"; E; F "rate"] 1014000 I64 [D 32 56 (Some (1013976, I32))];
   R [F "ifb"; F "ifb"; E; F "rcvb"] 1014008 I64 [D 32 56 (Some (1013976, I32))];
   R [F "ifb"; F "ifb"; E; F "sndb"] 1014016 I64 [D 32 56 (Some (1013976, I32))];
   R [F "ifb"; F "ifb"; E; F "rcvp"] 1014024 I64 [D 32 56 (Some (1013976, I32))];
   R [F "ifb"; F "ifb"; E; F "sndp"] 1014032 I64 [D 32 56 (Some (1013976, I32))];
   R [F "llc"; F "nrllcs"] 1015776 I32 [];
   R [F "llc"; F "perllc"; E; F "id"] 1015784 U8 [D 256 24 (Some (1015776, I32))];
   R [F "llc"; F "perllc"; E; F "occupancy"] 1015788 F32 [D 256 24 (Some (1015776, I32))];
   R [F "llc"; F "perllc"; E; F "mbm_local"] 1015792 I64 [D 256 24 (Some (1015776, I32))];
   R [F "llc"; F "perllc"; E; F "mbm_total"] 1015800 I64 [D 256 24 (Some (1015776, I32))];
   R [F "www"; F "accesses"] 1021928 I64 [];
   R [F "www"; F "totkbytes"] 1021936 I64 [];
   R [F "www"; F "uptime"] 1021944 I64 [];
   R [F "www"; F "bworkers"] 1021952 I32 [];
   R [F "www"; F "iworkers"] 1021956 I32 []].

Definition tstat_2_8 : list row := [
   R [F "gen"; F "tgid"] 0 I32 [];
   R [F "gen"; F "pid"] 4 I32 [];
   R [F "gen"; F "ppid"] 8 I32 [];
   R [F "gen"; F "ruid"] 12 I32 [];
   R [F "gen"; F "euid"] 16 I32 [];
   R [F "gen"; F "suid"] 20 I32 [];
   R [F "gen"; F "fsuid"] 24 I32 [];
   R [F "gen"; F "rgid"] 28 I32 [];
   R [F "gen"; F "egid"] 32 I32 [];
   R [F "gen"; F "sgid"] 36 I32 [];
   R [F "gen"; F "fsgid"] 40 I32 [];
   R [F "gen"; F "nthr"] 44 I32 [];
   R [F "gen"; F "name"] 48 (Text 16) [];
   R [F "gen"; F "isproc"] 64 Chr [];
   R [F "gen"; F "state"] 65 Chr [];
   R [F "gen"; F "excode"] 68 I32 [];
   R [F "gen"; F "btime"] 72 I64 [];
   R [F "gen"; F "elaps"] 80 I64 [];
   R [F "gen"; F "cmdline"] 88 (Text 256) [];
   R [F "gen"; F "nthrslpi"] 344 I32 [];
   R [F "gen"; F "nthrslpu"] 348 I32 [];
   R [F "gen"; F "nthrrun"] 352 I32 [];
   R [F "gen"; F "ctid"] 356 I32 [];
   R [F "gen"; F "vpid"] 360 I32 [];
   R [F "gen"; F "wasinactive"] 364 I32 [];
   R [F "gen"; F "container"] 368 (Text 16) [];
   R [F "gen"; F "cgpath"] 384 (Text 64) [];
   R [F "cpu"; F "utime"] 448 I64 [];
   R [F "cpu"; F "stime"] 456 I64 [];
   R [F "cpu"; F "nice"] 464 I32 [];
   R [F "cpu"; F "prio"] 468 I32 [];
   R [F "cpu"; F "rtprio"] 472 I32 [];
   R [F "cpu"; F "policy"] 476 I32 [];
   R [F "cpu"; F "curcpu"] 480 I32 [];
   R [F "cpu"; F "sleepavg"] 484 I32 [];
   R [F "cpu"; F "cgcpuweight"] 488 I32 [];
   R [F "cpu"; F "cgcpumax"] 492 I32 [];
   R [F "cpu"; F "cgcpumaxr"] 496 I32 [];
   R [F "cpu"; F "ifuture"; E] 500 I32 [D 3 4 None];
   R [F "cpu"; F "wchan"] 512 (Text 16) [];
   R [F "cpu"; F "rundelay"] 528 I64 [];
   R [F "cpu"; F "blkdelay"] 536 I64 [];
   R [F "cpu"; F "cfuture"; E] 544 I64 [D 3 8 None];
   R [F "dsk"; F "rio"] 568 I64 [];
   R [F "dsk"; F "rsz"] 576 I64 [];
   R [F "dsk"; F "wio"] 584 I64 [];
   R [F "dsk"; F "wsz"] 592 I64 [];
   R [F "dsk"; F "cwsz"] 600 I64 [];
   R [F "dsk"; F "cfuture"; E] 608 I64 [D 4 8 None];
   R [F "mem"; F "minflt"] 640 I64 [];
   R [F "mem"; F "majflt"] 648 I64 [];
   R [F "mem"; F "vexec"] 656 I64 [];
   R [F "mem"; F "vmem"] 664 I64 [];
   R [F "mem"; F "rmem"] 672 I64 [];
   R [F "mem"; F "pmem"] 680 I64 [];
   R [F "mem"; F "vgrow"] 688 I64 [];
   R [F "mem"; F "rgrow"] 696 I64 [];
   R [F "mem"; F "vdata"] 704 I64 [];
   R [F "mem"; F "vstack"] 712 I64 [];
   R [F "mem"; F "vlibs"] 720 I64 [];
   R [F "mem"; F "vswap"] 728 I64 [];
   R [F "mem"; F "vlock"] 736 I64 [];
   R [F "mem"; F "cgmemmax"] 744 I64 [];
   R [F "mem"; F "cgmemmaxr"] 752 I64 [];
   R [F "mem"; F "cgswpmax"] 760 I64 [];
   R [F "mem"; F "cgswpmaxr"] 768 I64 [];
   R [F "mem"; F "cfuture"; E] 776 I64 [D 3 8 None];
   R [F "net"; F "tcpsnd"] 800 I64 [];
   R [F "net"; F "tcpssz"] 808 I64 [];
   R [F "net"; F "tcprcv"] 816 I64 [];
   R [F "net"; F "tcprsz"] 824 I64 [];
   R [F "net"; F "udpsnd"] 832 I64 [];
   R [F "net"; F "udpssz"] 840 I64 [];
   R [F "net"; F "udprcv"] 848 I64 [];
   R [F "net"; F "udprsz"] 856 I64 [];
   R [F "net"; F "avail1"] 864 I64 [];
   R [F "net"; F "avail2"] 872 I64 [];
   R [F "net"; F "cfuture"; E] 880 I64 [D 4 8 None];
   R [F "gpu"; F "state"] 912 Chr [];
   R [F "gpu"; F "cfuture"] 913 (Text 3) [];
   R [F "gpu"; F "nrgpus"] 916 I16 [];
   R [F "gpu"; F "gpulist"] 920 I32 [];
   R [F "gpu"; F "gpubusy"] 924 I32 [];
   R [F "gpu"; F "membusy"] 928 I32 [];
   R [F "gpu"; F "timems"] 936 I64 [];
   R [F "gpu"; F "memnow"] 944 I64 [];
   R [F "gpu"; F "memcum"] 952 I64 [];
   R [F "gpu"; F "sample"] 960 I64 []].

Definition tstat_2_9 : list row := [
   R [F "gen"; F "tgid"] 0 I32 [];
   R [F "gen"; F "pid"] 4 I32 [];
   R [F "gen"; F "ppid"] 8 I32 [];
   R [F "gen"; F "ruid"] 12 I32 [];
   R [F "gen"; F "euid"] 16 I32 [];
   R [F "gen"; F "suid"] 20 I32 [];
   R [F "gen"; F "fsuid"] 24 I32 [];
   R [F "gen"; F "rgid"] 28 I32 [];
   R [F "gen"; F "egid"] 32 I32 [];
   R [F "gen"; F "sgid"] 36 I32 [];
   R [F "gen"; F "fsgid"] 40 I32 [];
   R [F "gen"; F "nthr"] 44 I32 [];
   R [F "gen"; F "name"] 48 (Text 16) [];
   R [F "gen"; F "isproc"] 64 Chr [];
   R [F "gen"; F "state"] 65 Chr [];
   R [F "gen"; F "excode"] 68 I32 [];
   R [F "gen"; F "btime"] 72 I64 [];
   R [F "gen"; F "elaps"] 80 I64 [];
   R [F "gen"; F "cmdline"] 88 (Text 256) [];
   R [F "gen"; F "nthrslpi"] 344 I32 [];
   R [F "gen"; F "nthrslpu"] 348 I32 [];
   R [F "gen"; F "nthrrun"] 352 I32 [];
   R [F "gen"; F "ctid"] 356 I32 [];
   R [F "gen"; F "vpid"] 360 I32 [];
   R [F "gen"; F "wasinactive"] 364 I32 [];
   R [F "gen"; F "container"] 368 (Text 16) [];
   R [F "gen"; F "cgpath"] 384 (Text 64) [];
   R [F "cpu"; F "utime"] 448 I64 [];
   R [F "cpu"; F "stime"] 456 I64 [];
   R [F "cpu"; F "nice"] 464 I32 [];
   R [F "cpu"; F "prio"] 468 I32 [];
   R [F "cpu"; F "rtprio"] 472 I32 [];
   R [F "cpu"; F "policy"] 476 I32 [];
   R [F "cpu"; F "curcpu"] 480 I32 [];
   R [F "cpu"; F "sleepavg"] 484 I32 [];
   R [F "cpu"; F "cgcpuweight"] 488 I32 [];
   R [F "cpu"; F "cgcpumax"] 492 I32 [];
   R [F "cpu"; F "cgcpumaxr"] 496 I32 [];
   R [F "cpu"; F "ifuture"; E] 500 I32 [D 3 4 None];
   R [F "cpu"; F "wchan"] 512 (Text 16) [];
   R [F "cpu"; F "rundelay"] 528 I64 [];
   R [F "cpu"; F "blkdelay"] 536 I64 [];
   R [F "cpu"; F "nvcsw"] 544 I64 [];
   R [F "cpu"; F "nivcsw"] 552 I64 [];
   R [F "cpu"; F "cfuture"; E] 560 I64 [D 1 8 None];
   R [F "dsk"; F "rio"] 568 I64 [];
   R [F "dsk"; F "rsz"] 576 I64 [];
   R [F "dsk"; F "wio"] 584 I64 [];
   R [F "dsk"; F "wsz"] 592 I64 [];
   R [F "dsk"; F "cwsz"] 600 I64 [];
   R [F "dsk"; F "cfuture"; E] 608 I64 [D 4 8 None];
   R [F "mem"; F "minflt"] 640 I64 [];
   R [F "mem"; F "majflt"] 648 I64 [];
   R [F "mem"; F "vexec"] 656 I64 [];
   R [F "mem"; F "vmem"] 664 I64 [];
   R [F "mem"; F "rmem"] 672 I64 [];
   R [F "mem"; F "pmem"] 680 I64 [];
   R [F "mem"; F "vgrow"] 688 I64 [];
   R [F "mem"; F "rgrow"] 696 I64 [];
   R [F "mem"; F "vdata"] 704 I64 [];
   R [F "mem"; F "vstack"] 712 I64 [];
   R [F "mem"; F "vlibs"] 720 I64 [];
   R [F "mem"; F "vswap"] 728 I64 [];
   R [F "mem"; F "vlock"] 736 I64 [];
   R [F "mem"; F "cgmemmax"] 744 I64 [];
   R [F "mem"; F "cgmemmaxr"] 752 I64 [];
   R [F "mem"; F "cgswpmax"] 760 I64 [];
   R [F "mem"; F "cgswpmaxr"] 768 I64 [];
   R [F "mem"; F "cfuture"; E] 776 I64 [D 3 8 None];
   R [F "net"; F "tcpsnd"] 800 I64 [];
   R [F "net"; F "tcpssz"] 808 I64 [];
   R [F "net"; F "tcprcv"] 816 I64 [];
   R [F "net"; F "tcprsz"] 824 I64 [];
   R [F "net"; F "udpsnd"] 832 I64 [];
   R [F "net"; F "udpssz"] 840 I64 [];
   R [F "net"; F "udprcv"] 848 I64 [];
   R [F "net"; F "udprsz"] 856 I64 [];
   R [F "net"; F "avail1"] 864 I64 [];
   R [F "net"; F "avail2"] 872 I64 [];
   R [F "net"; F "cfuture"; E] 880 I64 [D 4 8 None];
   R [F "gpu"; F "state"] 912 Chr [];
   R [F "gpu"; F "cfuture"] 913 (Text 3) [];
   R [F "gpu"; F "nrgpus"] 916 I16 [];
   R [F "gpu"; F "gpulist"] 920 I32 [];
   R [F "gpu"; F "gpubusy"] 924 I32 [];
   R [F "gpu"; F "membusy"] 928 I32 [];
   R [F "gpu"; F "timems"] 936 I64 [];
   R [F "gpu"; F "memnow"] 944 I64 [];
   R [F "gpu"; F "memcum"] 952 I64 [];
   R [F "gpu"; F "sample"] 960 I64 []].

Definition record_2_10 : list row := [
   R [F "curtime"] 0 I64 [];
   R [F "flags"] 8 U16 [];
   R [F "sfuture"; E] 10 U16 [D 3 2 None];
   R [F "scomplen"] 16 U32 [];
   R [F "pcomplen"] 20 U32 [];
   R [F "interval"] 24 U32 [];
   R [F "ndeviat"] 28 U32 [];
   R [F "nactproc"] 32 U32 [];
   R [F "ntask"] 36 U32 [];
   R [F "totproc"] 40 U32 [];
   R [F "totrun"] 44 U32 [];
   R [F "totslpi"] 48 U32 [];
   R [F "totslpu"] 52 U32 [];
   R [F "totzomb"] 56 U32 [];
   R [F "nexit"] 60 U32 [];
   R [F "noverflow"] 64 U32 [];
   R [F "totidle"] 68 U32 [];
   R [F "ifuture"; E] 72 U32 [D 5 4 None]].

Definition sstat_2_10 : list row := [
   R [F "cpu"; F "nrcpu"] 0 I64 [];
   R [F "cpu"; F "devint"] 8 I64 [];
   R [F "cpu"; F "csw"] 16 I64 [];
   R [F "cpu"; F "nprocs"] 24 I64 [];
   R [F "cpu"; F "lavg1"] 32 F32 [];
   R [F "cpu"; F "lavg5"] 36 F32 [];
   R [F "cpu"; F "lavg15"] 40 F32 [];
   R [F "cpu"; F "cfuture"; E] 48 I64 [D 4 8 None];
   R [F "cpu"; F "all"; F "cpunr"] 80 I32 [];
   R [F "cpu"; F "all"; F "stime"] 88 I64 [];
   R [F "cpu"; F "all"; F "utime"] 96 I64 [];
   R [F "cpu"; F "all"; F "ntime"] 104 I64 [];
   R [F "cpu"; F "all"; F "itime"] 112 I64 [];
   R [F "cpu"; F "all"; F "wtime"] 120 I64 [];
   R [F "cpu"; F "all"; F "Itime"] 128 I64 [];
   R [F "cpu"; F "all"; F "Stime"] 136 I64 [];
   R [F "cpu"; F "all"; F "steal"] 144 I64 [];
   R [F "cpu"; F "all"; F "guest"] 152 I64 [];
   R [F "cpu"; F "all"; F "freqcnt"; F "maxfreq"] 160 I64 [];
   R [F "cpu"; F "all"; F "freqcnt"; F "cnt"] 168 I64 [];
   R [F "cpu"; F "all"; F "freqcnt"; F "ticks"] 176 I64 [];
   R [F "cpu"; F "all"; F "instr"] 184 I64 [];
   R [F "cpu"; F "all"; F "cycle"] 192 I64 [];
   R [F "cpu"; F "all"; F "cfuture"; E] 200 I64 [D 6 8 None];
   R [F "cpu"; F "cpu"; E; F "cpunr"] 248 I32 [D 2048 168 (Some (0, I64))];
   R [F "cpu"; F "cpu"; E; F "stime"] 256 I64 [D 2048 168 (Some (0, I64))];
   R [F "cpu"; F "cpu"; E; F "utime"] 264 I64 [D 2048 168 (Some (0, I64))];
   R [F "cpu"; F "cpu"; E; F "ntime"] 272 I64 [D 2048 168 (Some (0, I64))];
   R [F "cpu"; F "cpu"; E; F "itime"] 280 I64 [D 2048 168 (Some (0, I64))];
   R [F "cpu"; F "cpu"; E; F "wtime"] 288 I64 [D 2048 168 (Some (0, I64))];
   R [F "cpu"; F "cpu"; E; F "Itime"] 296 I64 [D 2048 168 (Some (0, I64))];
   R [F "cpu"; F "cpu"; E; F "Stime"] 304 I64 [D 2048 168 (Some (0, I64))];
   R [F "cpu"; F "cpu"; E; F "steal"] 312 I64 [D 2048 168 (Some (0, I64))];
   R [F "cpu"; F "cpu"; E; F "guest"] 320 I64 [D 2048 168 (Some (0, I64))];
   R [F "cpu"; F "cpu"; E; F "freqcnt"; F "maxfreq"] 328 I64 [D 2048 168 (Some (0, I64))];
   R [F "cpu"; F "cpu"; E; F "freqcnt"; F "cnt"] 336 I64 [D 2048 168 (Some (0, I64))];
   R [F "cpu"; F "cpu"; E; F "freqcnt"; F "ticks"] 344 I64 [D 2048 168 (Some (0, I64))];
   R [F "cpu"; F "cpu"; E; F "instr"] 352 I64 [D 2048 168 (Some (0, I64))];
   R [F "cpu"; F "cpu"; E; F "cycle"] 360 I64 [D 2048 168 (Some (0, I64))];
   R [F "cpu"; F "cpu"; E; F "cfuture"; E] 368 I64 [D 2048 168 (Some (0, I64)); D 6 8 None];
   R [F "mem"; F "physmem"] 344312 I64 [];
   R [F "mem"; F "freemem"] 344320 I64 [];
   R [F "mem"; F "buffermem"] 344328 I64 [];
   R [F "mem"; F "slabmem"] 344336 I64 [];
   R [F "mem"; F "cachemem"] 344344 I64 [];
   R [F "mem"; F "cachedrt"] 344352 I64 [];
   R [F "mem"; F "totswap"] 344360 I64 [];
   R [F "mem"; F "freeswap"] 344368 I64 [];
   R [F "mem"; F "pgscans"] 344376 I64 [];
   R [F "mem"; F "pgsteal"] 344384 I64 [];
   R [F "mem"; F "allocstall"] 344392 I64 [];
   R [F "mem"; F "swouts"] 344400 I64 [];
   R [F "mem"; F "swins"] 344408 I64 [];
   R [F "mem"; F "tcpsock"] 344416 I64 [];
   R [F "mem"; F "udpsock"] 344424 I64 [];
   R [F "mem"; F "commitlim"] 344432 I64 [];
   R [F "mem"; F "committed"] 344440 I64 [];
   R [F "mem"; F "shmem"] 344448 I64 [];
   R [F "mem"; F "shmrss"] 344456 I64 [];
   R [F "mem"; F "shmswp"] 344464 I64 [];
   R [F "mem"; F "slabreclaim"] 344472 I64 [];
   R [F "mem"; F "stothugepage"] 344480 I64 [];
   R [F "mem"; F "sfreehugepage"] 344488 I64 [];
   R [F "mem"; F "shugepagesz"] 344496 I64 [];
   R [F "mem"; F "vmwballoon"] 344504 I64 [];
   R [F "mem"; F "zfsarcsize"] 344512 I64 [];
   R [F "mem"; F "swapcached"] 344520 I64 [];
   R [F "mem"; F "ksmsharing"] 344528 I64 [];
   R [F "mem"; F "ksmshared"] 344536 I64 [];
   R [F "mem"; F "zswapped"] 344544 I64 [];
   R [F "mem"; F "zswap"] 344552 I64 [];
   R [F "mem"; F "oomkills"] 344560 I64 [];
   R [F "mem"; F "compactstall"] 344568 I64 [];
   R [F "mem"; F "pgmigrate"] 344576 I64 [];
   R [F "mem"; F "numamigrate"] 344584 I64 [];
   R [F "mem"; F "pgouts"] 344592 I64 [];
   R [F "mem"; F "pgins"] 344600 I64 [];
   R [F "mem"; F "pagetables"] 344608 I64 [];
   R [F "mem"; F "zswouts"] 344616 I64 [];
   R [F "mem"; F "zswins"] 344624 I64 [];
   R [F "mem"; F "ltothugepage"] 344632 I64 [];
   R [F "mem"; F "lfreehugepage"] 344640 I64 [];
   R [F "mem"; F "lhugepagesz"] 344648 I64 [];
   R [F "mem"; F "availablemem"] 344656 I64 [];
   R [F "mem"; F "anonhugepage"] 344664 I64 [];
   R [F "mem"; F "cfuture"; E] 344672 I64 [D 4 8 None];
   R [F "net"; F "ipv4"; F "Forwarding"] 344704 I64 [];
   R [F "net"; F "ipv4"; F "DefaultTTL"] 344712 I64 [];
   R [F "net"; F "ipv4"; F "InReceives"] 344720 I64 [];
   R [F "net"; F "ipv4"; F "InHdrErrors"] 344728 I64 [];
   R [F "net"; F "ipv4"; F "InAddrErrors"] 344736 I64 [];
   R [F "net"; F "ipv4"; F "ForwDatagrams"] 344744 I64 [];
   R [F "net"; F "ipv4"; F "InUnknownProtos"] 344752 I64 [];
   R [F "net"; F "ipv4"; F "InDiscards"] 344760 I64 [];
   R [F "net"; F "ipv4"; F "InDelivers"] 344768 I64 [];
   R [F "net"; F "ipv4"; F "OutRequests"] 344776 I64 [];
   R [F "net"; F "ipv4"; F "OutDiscards"] 344784 I64 [];
   R [F "net"; F "ipv4"; F "OutNoRoutes"] 344792 I64 [];
   R [F "net"; F "ipv4"; F "ReasmTimeout"] 344800 I64 [];
   R [F "net"; F "ipv4"; F "ReasmReqds"] 344808 I64 [];
   R [F "net"; F "ipv4"; F "ReasmOKs"] 344816 I64 [];
   R [F "net"; F "ipv4"; F "ReasmFails"] 344824 I64 [];
   R [F "net"; F "ipv4"; F "FragOKs"] 344832 I64 [];
   R [F "net"; F "ipv4"; F "FragFails"] 344840 I64 [];
   R [F "net"; F "ipv4"; F "FragCreates"] 344848 I64 [];
   R [F "net"; F "icmpv4"; F "InMsgs"] 344856 I64 [];
   R [F "net"; F "icmpv4"; F "InErrors"] 344864 I64 [];
   R [F "net"; F "icmpv4"; F "InCsumErrors"] 344872 I64 [];
   R [F "net"; F "icmpv4"; F "InDestUnreachs"] 344880 I64 [];
   R [F "net"; F "icmpv4"; F "InTimeExcds"] 344888 I64 [];
   R [F "net"; F "icmpv4"; F "InParmProbs"] 344896 I64 [];
   R [F "net"; F "icmpv4"; F "InSrcQuenchs"] 344904 I64 [];
   R [F "net"; F "icmpv4"; F "InRedirects"] 344912 I64 [];
   R [F "net"; F "icmpv4"; F "InEchos"] 344920 I64 [];
   R [F "net"; F "icmpv4"; F "InEchoReps"] 344928 I64 [];
   R [F "net"; F "icmpv4"; F "InTimestamps"] 344936 I64 [];
   R [F "net"; F "icmpv4"; F "InTimestampReps"] 344944 I64 [];
   R [F "net"; F "icmpv4"; F "InAddrMasks"] 344952 I64 [];
   R [F "net"; F "icmpv4"; F "InAddrMaskReps"] 344960 I64 [];
   R [F "net"; F "icmpv4"; F "OutMsgs"] 344968 I64 [];
   R [F "net"; F "icmpv4"; F "OutErrors"] 344976 I64 [];
   R [F "net"; F "icmpv4"; F "OutDestUnreachs"] 344984 I64 [];
   R [F "net"; F "icmpv4"; F "OutTimeExcds"] 344992 I64 [];
   R [F "net"; F "icmpv4"; F "OutParmProbs"] 345000 I64 [];
   R [F "net"; F "icmpv4"; F "OutSrcQuenchs"] 345008 I64 [];
   R [F "net"; F "icmpv4"; F "OutRedirects"] 345016 I64 [];
   R [F "net"; F "icmpv4"; F "OutEchos"] 345024 I64 [];
   R [F "net"; F "icmpv4"; F "OutEchoReps"] 345032 I64 [];
   R [F "net"; F "icmpv4"; F "OutTimestamps"] 345040 I64 [];
   R [F "net"; F "icmpv4"; F "OutTimestampReps"] 345048 I64 [];
   R [F "net"; F "icmpv4"; F "OutAddrMasks"] 345056 I64 [];
   R [F "net"; F "icmpv4"; F "OutAddrMaskReps"] 345064 I64 [];
   R [F "net"; F "udpv4"; F "InDatagrams"] 345072 I64 [];
   R [F "net"; F "udpv4"; F "NoPorts"] 345080 I64 [];
   R [F "net"; F "udpv4"; F "InErrors"] 345088 I64 [];
   R [F "net"; F "udpv4"; F "OutDatagrams"] 345096 I64 [];
   R [F "net"; F "ipv6"; F "Ip6InReceives"] 345104 I64 [];
   R [F "net"; F "ipv6"; F "Ip6InHdrErrors"] 345112 I64 [];
   R [F "net"; F "ipv6"; F "Ip6InTooBigErrors"] 345120 I64 [];
   R [F "net"; F "ipv6"; F "Ip6InNoRoutes"] 345128 I64 [];
   R [F "net"; F "ipv6"; F "Ip6InAddrErrors"] 345136 I64 [];
   R [F "net"; F "ipv6"; F "Ip6InUnknownProtos"] 345144 I64 [];
   R [F "net"; F "ipv6"; F "Ip6InTruncatedPkts"] 345152 I64 [];
   R [F "net"; F "ipv6"; F "Ip6InDiscards"] 345160 I64 [];
   R [F "net"; F "ipv6"; F "Ip6InDelivers"] 345168 I64 [];
   R [F "net"; F "ipv6"; F "Ip6OutForwDatagrams"] 345176 I64 [];
   R [F "net"; F "ipv6"; F "Ip6OutRequests"] 345184 I64 [];
   R [F "net"; F "ipv6"; F "Ip6OutDiscards"] 345192 I64 [];
   R [F "net"; F "ipv6"; F "Ip6OutNoRoutes"] 345200 I64 [];
   R [F "net"; F "ipv6"; F "Ip6ReasmTimeout"] 345208 I64 [];
   R [F "net"; F "ipv6"; F "Ip6ReasmReqds"] 345216 I64 [];
   R [F "net"; F "ipv6"; F "Ip6ReasmOKs"] 345224 I64 [];
   R [F "net"; F "ipv6"; F "Ip6ReasmFails"] 345232 I64 [];
   R [F "net"; F "ipv6"; F "Ip6FragOKs"] 345240 I64 [];
   R [F "net"; F "ipv6"; F "Ip6FragFails"] 345248 I64 [];
   R [F "net"; F "ipv6"; F "Ip6FragCreates"] 345256 I64 [];
   R [F "net"; F "ipv6"; F "Ip6InMcastPkts"] 345264 I64 [];
   R [F "net"; F "ipv6"; F "Ip6OutMcastPkts"] 345272 I64 [];
   R [F "net"; F "icmpv6"; F "Icmp6InMsgs"] 345280 I64 [];
   R [F "net"; F "icmpv6"; F "Icmp6InErrors"] 345288 I64 [];
   R [F "net"; F "icmpv6"; F "Icmp6InDestUnreachs"] 345296 I64 [];
   R [F "net"; F "icmpv6"; F "Icmp6InPktTooBigs"] 345304 I64 [];
   R [F "net"; F "icmpv6"; F "Icmp6InTimeExcds"] 345312 I64 [];
   R [F "net"; F "icmpv6"; F "Icmp6InParmProblems"] 345320 I64 [];
   R [F "net"; F "icmpv6"; F "Icmp6InEchos"] 345328 I64 [];
   R [F "net"; F "icmpv6"; F "Icmp6InEchoReplies"] 345336 I64 [];
   R [F "net"; F "icmpv6"; F "Icmp6InGroupMembQueries"] 345344 I64 [];
   R [F "net"; F "icmpv6"; F "Icmp6InGroupMembResponses"] 345352 I64 [];
   R [F "net"; F "icmpv6"; F "Icmp6InGroupMembReductions"] 345360 I64 [];
   R [F "net"; F "icmpv6"; F "Icmp6InRouterSolicits"] 345368 I64 [];
   R [F "net"; F "icmpv6"; F "Icmp6InRouterAdvertisements"] 345376 I64 [];
   R [F "net"; F "icmpv6"; F "Icmp6InNeighborSolicits"] 345384 I64 [];
   R [F "net"; F "icmpv6"; F "Icmp6InNeighborAdvertisements"] 345392 I64 [];
   R [F "net"; F "icmpv6"; F "Icmp6InRedirects"] 345400 I64 [];
   R [F "net"; F "icmpv6"; F "Icmp6OutMsgs"] 345408 I64 [];
   R [F "net"; F "icmpv6"; F "Icmp6OutDestUnreachs"] 345416 I64 [];
   R [F "net"; F "icmpv6"; F "Icmp6OutPktTooBigs"] 345424 I64 [];
   R [F "net"; F "icmpv6"; F "Icmp6OutTimeExcds"] 345432 I64 [];
   R [F "net"; F "icmpv6"; F "Icmp6OutParmProblems"] 345440 I64 [];
   R [F "net"; F "icmpv6"; F "Icmp6OutEchoReplies"] 345448 I64 [];
   R [F "net"; F "icmpv6"; F "Icmp6OutRouterSolicits"] 345456 I64 [];
   R [F "net"; F "icmpv6"; F "Icmp6OutNeighborSolicits"] 345464 I64 [];
   R [F "net"; F "icmpv6"; F "Icmp6OutNeighborAdvertisements"] 345472 I64 [];
   R [F "net"; F "icmpv6"; F "Icmp6OutRedirects"] 345480 I64 [];
   R [F "net"; F "icmpv6"; F "Icmp6OutGroupMembResponses"] 345488 I64 [];
   R [F "net"; F "icmpv6"; F "Icmp6OutGroupMembReductions"] 345496 I64 [];
   R [F "net"; F "udpv6"; F "Udp6InDatagrams"] 345504 I64 [];
   R [F "net"; F "udpv6"; F "Udp6NoPorts"] 345512 I64 [];
   R [F "net"; F "udpv6"; F "Udp6InErrors"] 345520 I64 [];
   R [F "net"; F "udpv6"; F "Udp6OutDatagrams"] 345528 I64 [];
   R [F "net"; F "tcp"; F "RtoAlgorithm"] 345536 I64 [];
   R [F "net"; F "tcp"; F "RtoMin"] 345544 I64 [];
   R [F "net"; F "tcp"; F "RtoMax"] 345552 I64 [];
   R [F "net"; F "tcp"; F "MaxConn"] 345560 I64 [];
   R [F "net"; F "tcp"; F "ActiveOpens"] 345568 I64 [];
   R [F "net"; F "tcp"; F "PassiveOpens"] 345576 I64 [];
   R [F "net"; F "tcp"; F "AttemptFails"] 345584 I64 [];
   R [F "net"; F "tcp"; F "EstabResets"] 345592 I64 [];
   R [F "net"; F "tcp"; F "CurrEstab"] 345600 I64 [];
   R [F "net"; F "tcp"; F "InSegs"] 345608 I64 [];
   R [F "net"; F "tcp"; F "OutSegs"] 345616 I64 [];
   R [F "net"; F "tcp"; F "RetransSegs"] 345624 I64 [];
   R [F "net"; F "tcp"; F "InErrs"] 345632 I64 [];
   R [F "net"; F "tcp"; F "OutRsts"] 345640 I64 [];
   R [F "net"; F "tcp"; F "InCsumErrors"] 345648 I64 [];
   R [F "intf"; F "nrintf"] 345656 I32 [];
   R [F "intf"; F "intf"; E; F "name"] 345664 (Text 16) [D 128 272 (Some (345656, I32))];
   R [F "intf"; F "intf"; E; F "rbyte"] 345680 I64 [D 128 272 (Some (345656, I32))];
   R [F "intf"; F "intf"; E; F "rpack"] 345688 I64 [D 128 272 (Some (345656, I32))];
   R [F "intf"; F "intf"; E; F "rerrs"] 345696 I64 [D 128 272 (Some (345656, I32))];
   R [F "intf"; F "intf"; E; F "rdrop"] 345704 I64 [D 128 272 (Some (345656, I32))];
   R [F "intf"; F "intf"; E; F "rfifo"] 345712 I64 [D 128 272 (Some (345656, I32))];
   R [F "intf"; F "intf"; E; F "rframe"] 345720 I64 [D 128 272 (Some (345656, I32))];
   R [F "intf"; F "intf"; E; F "rcompr"] 345728 I64 [D 128 272 (Some (345656, I32))];
   R [F "intf"; F "intf"; E; F "rmultic"] 345736 I64 [D 128 272 (Some (345656, I32))];
   R [F "intf"; F "intf"; E; F "rfuture"; E] 345744 I64 [D 128 272 (Some (345656, I32)); D 4 8 None];
   R [F "intf"; F "intf"; E; F "sbyte"] 345776 I64 [D 128 272 (Some (345656, I32))];
   R [F "intf"; F "intf"; E; F "spack"] 345784 I64 [D 128 272 (Some (345656, I32))];
   R [F "intf"; F "intf"; E; F "serrs"] 345792 I64 [D 128 272 (Some (345656, I32))];
   R [F "intf"; F "intf"; E; F "sdrop"] 345800 I64 [D 128 272 (Some (345656, I32))];
   R [F "intf"; F "intf"; E; F "sfifo"] 345808 I64 [D 128 272 (Some (345656, I32))];
   R [F "intf"; F "intf"; E; F "scollis"] 345816 I64 [D 128 272 (Some (345656, I32))];
   R [F "intf"; F "intf"; E; F "scarrier"] 345824 I64 [D 128 272 (Some (345656, I32))];
   R [F "intf"; F "intf"; E; F "scompr"] 345832 I64 [D 128 272 (Some (345656, I32))];
   R [F "intf"; F "intf"; E; F "sfuture"; E] 345840 I64 [D 128 272 (Some (345656, I32)); D 4 8 None];
   R [F "intf"; F "intf"; E; F "type"] 345872 Chr [D 128 272 (Some (345656, I32))];
   R [F "intf"; F "intf"; E; F "speed"] 345880 I64 [D 128 272 (Some (345656, I32))];
   R [F "intf"; F "intf"; E; F "speedp"] 345888 I64 [D 128 272 (Some (345656, I32))];
   R [F "intf"; F "intf"; E; F "duplex"] 345896 Chr [D 128 272 (Some (345656, I32))];
   R [F "intf"; F "intf"; E; F "cfuture"; E] 345904 I64 [D 128 272 (Some (345656, I32)); D 4 8 None];
   R [F "memnuma"; F "nrnuma"] 380480 I64 [];
   R [F "memnuma"; F "numa"; E; F "numanr"] 380488 I32 [D 1024 96 (Some (380480, I64))];
   R [F "memnuma"; F "numa"; E; F "frag"] 380492 F32 [D 1024 96 (Some (380480, I64))];
   R [F "memnuma"; F "numa"; E; F "totmem"] 380496 I64 [D 1024 96 (Some (380480, I64))];
   R [F "memnuma"; F "numa"; E; F "freemem"] 380504 I64 [D 1024 96 (Some (380480, I64))];
   R [F "memnuma"; F "numa"; E; F "filepage"] 380512 I64 [D 1024 96 (Some (380480, I64))];
   R [F "memnuma"; F "numa"; E; F "dirtymem"] 380520 I64 [D 1024 96 (Some (380480, I64))];
   R [F "memnuma"; F "numa"; E; F "slabmem"] 380528 I64 [D 1024 96 (Some (380480, I64))];
   R [F "memnuma"; F "numa"; E; F "slabreclaim"] 380536 I64 [D 1024 96 (Some (380480, I64))];
   R [F "memnuma"; F "numa"; E; F "active"] 380544 I64 [D 1024 96 (Some (380480, I64))];
   R [F "memnuma"; F "numa"; E; F "inactive"] 380552 I64 [D 1024 96 (Some (380480, I64))];
   R [F "memnuma"; F "numa"; E; F "shmem"] 380560 I64 [D 1024 96 (Some (380480, I64))];
   R [F "memnuma"; F "numa"; E; F "tothp"] 380568 I64 [D 1024 96 (Some (380480, I64))];
   R [F "memnuma"; F "numa"; E; F "freehp"] 380576 I64 [D 1024 96 (Some (380480, I64))];
   R [F "cpunuma"; F "nrnuma"] 478792 I64 [];
   R [F "cpunuma"; F "numa"; E; F "numanr"] 478800 I32 [D 1024 88 (Some (478792, I64))];
   R [F "cpunuma"; F "numa"; E; F "nrcpu"] 478808 I64 [D 1024 88 (Some (478792, I64))];
   R [F "cpunuma"; F "numa"; E; F "stime"] 478816 I64 [D 1024 88 (Some (478792, I64))];
   R [F "cpunuma"; F "numa"; E; F "utime"] 478824 I64 [D 1024 88 (Some (478792, I64))];
   R [F "cpunuma"; F "numa"; E; F "ntime"] 478832 I64 [D 1024 88 (Some (478792, I64))];
   R [F "cpunuma"; F "numa"; E; F "itime"] 478840 I64 [D 1024 88 (Some (478792, I64))];
   R [F "cpunuma"; F "numa"; E; F "wtime"] 478848 I64 [D 1024 88 (Some (478792, I64))];
   R [F "cpunuma"; F "numa"; E; F "Itime"] 478856 I64 [D 1024 88 (Some (478792, I64))];
   R [F "cpunuma"; F "numa"; E; F "Stime"] 478864 I64 [D 1024 88 (Some (478792, I64))];
   R [F "cpunuma"; F "numa"; E; F "steal"] 478872 I64 [D 1024 88 (Some (478792, I64))];
   R [F "cpunuma"; F "numa"; E; F "guest"] 478880 I64 [D 1024 88 (Some (478792, I64))];
   R [F "dsk"; F "ndsk"] 568912 I32 [];
   R [F "dsk"; F "nmdd"] 568916 I32 [];
   R [F "dsk"; F "nlvm"] 568920 I32 [];
   R [F "dsk"; F "dsk"; E; F "name"] 568928 (Text 32) [D 1024 128 (Some (568912, I32))];
   R [F "dsk"; F "dsk"; E; F "nread"] 568960 I64 [D 1024 128 (Some (568912, I32))];
   R [F "dsk"; F "dsk"; E; F "nrsect"] 568968 I64 [D 1024 128 (Some (568912, I32))];
   R [F "dsk"; F "dsk"; E; F "nwrite"] 568976 I64 [D 1024 128 (Some (568912, I32))];
   R [F "dsk"; F "dsk"; E; F "nwsect"] 568984 I64 [D 1024 128 (Some (568912, I32))];
   R [F "dsk"; F "dsk"; E; F "io_ms"] 568992 I64 [D 1024 128 (Some (568912, I32))];
   R [F "dsk"; F "dsk"; E; F "avque"] 569000 I64 [D 1024 128 (Some (568912, I32))];
   R [F "dsk"; F "dsk"; E; F "ndisc"] 569008 I64 [D 1024 128 (Some (568912, I32))];
   R [F "dsk"; F "dsk"; E; F "ndsect"] 569016 I64 [D 1024 128 (Some (568912, I32))];
   R [F "dsk"; F "dsk"; E; F "inflight"] 569024 I64 [D 1024 128 (Some (568912, I32))];
   R [F "dsk"; F "dsk"; E; F "cfuture"; E] 569032 I64 [D 1024 128 (Some (568912, I32)); D 3 8 None];
   R [F "dsk"; F "mdd"; E; F "name"] 700000 (Text 32) [D 256 128 (Some (568916, I32))];
   R [F "dsk"; F "mdd"; E; F "nread"] 700032 I64 [D 256 128 (Some (568916, I32))];
   R [F "dsk"; F "mdd"; E; F "nrsect"] 700040 I64 [D 256 128 (Some (568916, I32))];
   R [F "dsk"; F "mdd"; E; F "nwrite"] 700048 I64 [D 256 128 (Some (568916, I32))];
   R [F "dsk"; F "mdd"; E; F "nwsect"] 700056 I64 [D 256 128 (Some (568916, I32))];
   R [F "dsk"; F "mdd"; E; F "io_ms"] 700064 I64 [D 256 128 (Some (568916, I32))];
   R [F "dsk"; F "mdd"; E; F "avque"] 700072 I64 [D 256 128 (Some (568916, I32))];
   R [F "dsk"; F "mdd"; E; F "ndisc"] 700080 I64 [D 256 128 (Some (568916, I32))];
   R [F "dsk"; F "mdd"; E; F "ndsect"] 700088 I64 [D 256 128 (Some (568916, I32))];
   R [F "dsk"; F "mdd"; E; F "inflight"] 700096 I64 [D 256 128 (Some (568916, I32))];
   R [F "dsk"; F "mdd"; E; F "cfuture"; E] 700104 I64 [D 256 128 (Some (568916, I32)); D 3 8 None];
   R [F "dsk"; F "lvm"; E; F "name"] 732768 (Text 32) [D 2048 128 (Some (568920, I32))];
   R [F "dsk"; F "lvm"; E; F "nread"] 732800 I64 [D 2048 128 (Some (568920, I32))];
   R [F "dsk"; F "lvm"; E; F "nrsect"] 732808 I64 [D 2048 128 (Some (568920, I32))];
   R [F "dsk"; F "lvm"; E; F "nwrite"] 732816 I64 [D 2048 128 (Some (568920, I32))];
   R [F "dsk"; F "lvm"; E; F "nwsect"] 732824 I64 [D 2048 128 (Some (568920, I32))];
   R [F "dsk"; F "lvm"; E; F "io_ms"] 732832 I64 [D 2048 128 (Some (568920, I32))];
   R [F "dsk"; F "lvm"; E; F "avque"] 732840 I64 [D 2048 128 (Some (568920, I32))];
   R [F "dsk"; F "lvm"; E; F "ndisc"] 732848 I64 [D 2048 128 (Some (568920, I32))];
   R [F "dsk"; F "lvm"; E; F "ndsect"] 732856 I64 [D 2048 128 (Some (568920, I32))];
   R [F "dsk"; F "lvm"; E; F "inflight"] 732864 I64 [D 2048 128 (Some (568920, I32))];
   R [F "dsk"; F "lvm"; E; F "cfuture"; E] 732872 I64 [D 2048 128 (Some (568920, I32)); D 3 8 None];
   R [F "nfs"; F "server"; F "netcnt"] 994912 I64 [];
   R [F "nfs"; F "server"; F "netudpcnt"] 994920 I64 [];
   R [F "nfs"; F "server"; F "nettcpcnt"] 994928 I64 [];
   R [F "nfs"; F "server"; F "nettcpcon"] 994936 I64 [];
   R [F "nfs"; F "server"; F "rpccnt"] 994944 I64 [];
   R [F "nfs"; F "server"; F "rpcbadfmt"] 994952 I64 [];
   R [F "nfs"; F "server"; F "rpcbadaut"] 994960 I64 [];
   R [F "nfs"; F "server"; F "rpcbadcln"] 994968 I64 [];
   R [F "nfs"; F "server"; F "rpcread"] 994976 I64 [];
   R [F "nfs"; F "server"; F "rpcwrite"] 994984 I64 [];
   R [F "nfs"; F "server"; F "rchits"] 994992 I64 [];
   R [F "nfs"; F "server"; F "rcmiss"] 995000 I64 [];
   R [F "nfs"; F "server"; F "rcnoca"] 995008 I64 [];
   R [F "nfs"; F "server"; F "nrbytes"] 995016 I64 [];
   R [F "nfs"; F "server"; F "nwbytes"] 995024 I64 [];
   R [F "nfs"; F "server"; F "future"; E] 995032 I64 [D 8 8 None];
   R [F "nfs"; F "client"; F "rpccnt"] 995096 I64 [];
   R [F "nfs"; F "client"; F "rpcretrans"] 995104 I64 [];
   R [F "nfs"; F "client"; F "rpcautrefresh"] 995112 I64 [];
   R [F "nfs"; F "client"; F "rpcread"] 995120 I64 [];
   R [F "nfs"; F "client"; F "rpcwrite"] 995128 I64 [];
   R [F "nfs"; F "client"; F "future"; E] 995136 I64 [D 8 8 None];
   R [F "nfs"; F "nfsmounts"; F "nrmounts"] 995200 I32 [];
   R [F "nfs"; F "nfsmounts"; F "nfsmnt"; E; F "mountdev"] 995208 (Text 128) [D 64 264 (Some (995200, I32))];
   R [F "nfs"; F "nfsmounts"; F "nfsmnt"; E; F "age"] 995336 I64 [D 64 264 (Some (995200, I32))];
   R [F "nfs"; F "nfsmounts"; F "nfsmnt"; E; F "bytesread"] 995344 I64 [D 64 264 (Some (995200, I32))];
   R [F "nfs"; F "nfsmounts"; F "nfsmnt"; E; F "byteswrite"] 995352 I64 [D 64 264 (Some (995200, I32))];
   R [F "nfs"; F "nfsmounts"; F "nfsmnt"; E; F "bytesdread"] 995360 I64 [D 64 264 (Some (995200, I32))];
   R [F "nfs"; F "nfsmounts"; F "nfsmnt"; E; F "bytesdwrite"] 995368 I64 [D 64 264 (Some (995200, I32))];
   R [F "nfs"; F "nfsmounts"; F "nfsmnt"; E; F "bytestotread"] 995376 I64 [D 64 264 (Some (995200, I32))];
   R [F "nfs"; F "nfsmounts"; F "nfsmnt"; E; F "bytestotwrite"] 995384 I64 [D 64 264 (Some (995200, I32))];
   R [F "nfs"; F "nfsmounts"; F "nfsmnt"; E; F "pagesmread"] 995392 I64 [D 64 264 (Some (995200, I32))];
   R [F "nfs"; F "nfsmounts"; F "nfsmnt"; E; F "pagesmwrite"] 995400 I64 [D 64 264 (Some (995200, I32))];
   R [F "nfs"; F "nfsmounts"; F "nfsmnt"; E; F "future"; E] 995408 I64 [D 64 264 (Some (995200, I32)); D 8 8 None];
   R [F "cfs"; F "nrcontainer"] 1012104 I32 [];
   R [F "cfs"; F "cont"; E; F "ctid"] 1012112 U64 [D 128 56 (Some (1012104, I32))];
   R [F "cfs"; F "cont"; E; F "numproc"] 1012120 U64 [D 128 56 (Some (1012104, I32))];
   R [F "cfs"; F "cont"; E; F "system"] 1012128 I64 [D 128 56 (Some (1012104, I32))];
   R [F "cfs"; F "cont"; E; F "user"] 1012136 I64 [D 128 56 (Some (1012104, I32))];
   R [F "cfs"; F "cont"; E; F "nice"] 1012144 I64 [D 128 56 (Some (1012104, I32))];
   R [F "cfs"; F "cont"; E; F "uptime"] 1012152 I64 [D 128 56 (Some (1012104, I32))];
   R [F "cfs"; F "cont"; E; F "physpages"] 1012160 I64 [D 128 56 (Some (1012104, I32))];
   R [F "psi"; F "present"] 1019280 Chr [];
   R [F "psi"; F "future"] 1019281 (Text 3) [];
   R [F "psi"; F "cpusome"; F "avg10"] 1019288 F32 [];
   R [F "psi"; F "cpusome"; F "avg60"] 1019292 F32 [];
   R [F "psi"; F "cpusome"; F "avg300"] 1019296 F32 [];
   R [F "psi"; F "cpusome"; F "total"] 1019304 I64 [];
   R [F "psi"; F "memsome"; F "avg10"] 1019312 F32 [];
   R [F "psi"; F "memsome"; F "avg60"] 1019316 F32 [];
   R [F "psi"; F "memsome"; F "avg300"] 1019320 F32 [];
   R [F "psi"; F "memsome"; F "total"] 1019328 I64 [];
   R [F "psi"; F "memfull"; F "avg10"] 1019336 F32 [];
   R [F "psi"; F "memfull"; F "avg60"] 1019340 F32 [];
   R [F "psi"; F "memfull"; F "avg300"] 1019344 F32 [];
   R [F "psi"; F "memfull"; F "total"] 1019352 I64 [];
   R [F "psi"; F "iosome"; F "avg10"] 1019360 F32 [];
   R [F "psi"; F "iosome"; F "avg60"] 1019364 F32 [];
   R [F "psi"; F "iosome"; F "avg300"] 1019368 F32 [];
   R [F "psi"; F "iosome"; F "total"] 1019376 I64 [];
   R [F "psi"; F "iofull"; F "avg10"] 1019384 F32 [];
   R [F "psi"; F "iofull"; F "avg60"] 1019388 F32 [];
   R [F "psi"; F "iofull"; F "avg300"] 1019392 F32 [];
   R [F "psi"; F "iofull"; F "total"] 1019400 I64 [];
   R [F "gpu"; F "nrgpus"] 1019408 I32 [];
   R [F "gpu"; F "gpu"; E; F "taskstats"] 1019416 Chr [D 32 88 (Some (1019408, I32))];
   R [F "gpu"; F "gpu"; E; F "nrprocs"] 1019417 U8 [D 32 88 (Some (1019408, I32))];
   R [F "gpu"; F "gpu"; E; F "type"] 1019418 (Text 13) [D 32 88 (Some (1019408, I32))];
   R [F "gpu"; F "gpu"; E; F "busid"] 1019431 (Text 13) [D 32 88 (Some (1019408, I32))];
   R [F "gpu"; F "gpu"; E; F "gpunr"] 1019444 I32 [D 32 88 (Some (1019408, I32))];
   R [F "gpu"; F "gpu"; E; F "gpupercnow"] 1019448 I32 [D 32 88 (Some (1019408, I32))];
   R [F "gpu"; F "gpu"; E; F "mempercnow"] 1019452 I32 [D 32 88 (Some (1019408, I32))];
   R [F "gpu"; F "gpu"; E; F "memtotnow"] 1019456 I64 [D 32 88 (Some (1019408, I32))];
   R [F "gpu"; F "gpu"; E; F "memusenow"] 1019464 I64 [D 32 88 (Some (1019408, I32))];
   R [F "gpu"; F "gpu"; E; F "samples"] 1019472 I64 [D 32 88 (Some (1019408, I32))];
   R [F "gpu"; F "gpu"; E; F "gpuperccum"] 1019480 I64 [D 32 88 (Some (1019408, I32))];
   R [F "gpu"; F "gpu"; E; F "memperccum"] 1019488 I64 [D 32 88 (Some (1019408, I32))];
   R [F "gpu"; F "gpu"; E; F "memusecum"] 1019496 I64 [D 32 88 (Some (1019408, I32))];
   R [F "ifb"; F "nrports"] 1022232 I32 [];
   R [F "ifb"; F "ifb"; E; F "ibname"] 1022240 (Text 12) [D 32 56 (Some (1022232, I32))];
   R [F "ifb"; F "ifb"; E; F "portnr"] 1022252 I16 [D 32 56 (Some (1022232, I32))];
   R [F "ifb"; F "ifb"; E; F "lanes"] 1022254 I16 [D 32 56 (Some (1022232, I32))];
   R [F "ifb"; F "ifb"; E; F "rate"] 1022256 I64 [D 32 56 (Some (1022232, I32))];
   R [F "ifb"; F "ifb"; E; F "rcvb"] 1022264 I64 [D 32 56 (Some (1022232, I32))];
   R [F "ifb"; F "ifb"; E; F "sndb"] 1022272 I64 [D 32 56 (Some (1022232, I32))];
   R [F "ifb"; F "ifb"; E; F "rcvp"] 1022280 I64 [D 32 56 (Some (1022232, I32))];
   R [F "ifb"; F "ifb"; E; F "sndp"] 1022288 I64 [D 32 56 (Some (1022232, I32))];
   R [F "llc"; F "nrllcs"] 1024032 I32 [];
   R [F "llc"; F "perllc"; E; F "id"] 1024040 U8 [D 256 24 (Some (1024032, I32))];
   R [F "llc"; F "perllc"; E; F "occupancy"] 1024044 F32 [D 256 24 (Some (1024032, I32))];
   R [F "llc"; F "perllc"; E; F "mbm_local"] 1024048 I64 [D 256 24 (Some (1024032, I32))];
   R [F "llc"; F "perllc"; E; F "mbm_total"] 1024056 I64 [D 256 24 (Some (1024032, I32))];
   R [F "www"; F "accesses"] 1030184 I64 [];
   R [F "www"; F "totkbytes"] 1030192 I64 [];
   R [F "www"; F "uptime"] 1030200 I64 [];
   R [F "www"; F "bworkers"] 1030208 I32 [];
   R [F "www"; F "iworkers"] 1030212 I32 []].

Definition tstat_2_10 : list row := [
   R [F "gen"; F "tgid"] 0 I32 [];
   R [F "gen"; F "pid"] 4 I32 [];
   R [F "gen"; F "ppid"] 8 I32 [];
   R [F "gen"; F "ruid"] 12 I32 [];
   R [F "gen"; F "euid"] 16 I32 [];
   R [F "gen"; F "suid"] 20 I32 [];
   R [F "gen"; F "fsuid"] 24 I32 [];
   R [F "gen"; F "rgid"] 28 I32 [];
   R [F "gen"; F "egid"] 32 I32 [];
   R [F "gen"; F "sgid"] 36 I32 [];
   R [F "gen"; F "fsgid"] 40 I32 [];
   R [F "gen"; F "nthr"] 44 I32 [];
   R [F "gen"; F "name"] 48 (Text 16) [];
   R [F "gen"; F "isproc"] 64 Chr [];
   R [F "gen"; F "state"] 65 Chr [];
   R [F "gen"; F "excode"] 68 I32 [];
   R [F "gen"; F "btime"] 72 I64 [];
   R [F "gen"; F "elaps"] 80 I64 [];
   R [F "gen"; F "cmdline"] 88 (Text 256) [];
   R [F "gen"; F "nthrslpi"] 344 I32 [];
   R [F "gen"; F "nthrslpu"] 348 I32 [];
   R [F "gen"; F "nthrrun"] 352 I32 [];
   R [F "gen"; F "nthridle"] 356 I32 [];
   R [F "gen"; F "ctid"] 360 I32 [];
   R [F "gen"; F "vpid"] 364 I32 [];
   R [F "gen"; F "wasinactive"] 368 I32 [];
   R [F "gen"; F "utsname"] 372 (Text 16) [];
   R [F "gen"; F "cgpath"] 388 (Text 64) [];
   R [F "cpu"; F "utime"] 456 I64 [];
   R [F "cpu"; F "stime"] 464 I64 [];
   R [F "cpu"; F "nice"] 472 I32 [];
   R [F "cpu"; F "prio"] 476 I32 [];
   R [F "cpu"; F "rtprio"] 480 I32 [];
   R [F "cpu"; F "policy"] 484 I32 [];
   R [F "cpu"; F "curcpu"] 488 I32 [];
   R [F "cpu"; F "sleepavg"] 492 I32 [];
   R [F "cpu"; F "cgcpuweight"] 496 I32 [];
   R [F "cpu"; F "cgcpumax"] 500 I32 [];
   R [F "cpu"; F "cgcpumaxr"] 504 I32 [];
   R [F "cpu"; F "ifuture"; E] 508 I32 [D 3 4 None];
   R [F "cpu"; F "wchan"] 520 (Text 16) [];
   R [F "cpu"; F "rundelay"] 536 I64 [];
   R [F "cpu"; F "blkdelay"] 544 I64 [];
   R [F "cpu"; F "nvcsw"] 552 I64 [];
   R [F "cpu"; F "nivcsw"] 560 I64 [];
   R [F "cpu"; F "cfuture"; E] 568 I64 [D 3 8 None];
   R [F "dsk"; F "rio"] 592 I64 [];
   R [F "dsk"; F "rsz"] 600 I64 [];
   R [F "dsk"; F "wio"] 608 I64 [];
   R [F "dsk"; F "wsz"] 616 I64 [];
   R [F "dsk"; F "cwsz"] 624 I64 [];
   R [F "dsk"; F "cfuture"; E] 632 I64 [D 4 8 None];
   R [F "mem"; F "minflt"] 664 I64 [];
   R [F "mem"; F "majflt"] 672 I64 [];
   R [F "mem"; F "vexec"] 680 I64 [];
   R [F "mem"; F "vmem"] 688 I64 [];
   R [F "mem"; F "rmem"] 696 I64 [];
   R [F "mem"; F "pmem"] 704 I64 [];
   R [F "mem"; F "vgrow"] 712 I64 [];
   R [F "mem"; F "rgrow"] 720 I64 [];
   R [F "mem"; F "vdata"] 728 I64 [];
   R [F "mem"; F "vstack"] 736 I64 [];
   R [F "mem"; F "vlibs"] 744 I64 [];
   R [F "mem"; F "vswap"] 752 I64 [];
   R [F "mem"; F "vlock"] 760 I64 [];
   R [F "mem"; F "cgmemmax"] 768 I64 [];
   R [F "mem"; F "cgmemmaxr"] 776 I64 [];
   R [F "mem"; F "cgswpmax"] 784 I64 [];
   R [F "mem"; F "cgswpmaxr"] 792 I64 [];
   R [F "mem"; F "cfuture"; E] 800 I64 [D 3 8 None];
   R [F "net"; F "tcpsnd"] 824 I64 [];
   R [F "net"; F "tcpssz"] 832 I64 [];
   R [F "net"; F "tcprcv"] 840 I64 [];
   R [F "net"; F "tcprsz"] 848 I64 [];
   R [F "net"; F "udpsnd"] 856 I64 [];
   R [F "net"; F "udpssz"] 864 I64 [];
   R [F "net"; F "udprcv"] 872 I64 [];
   R [F "net"; F "udprsz"] 880 I64 [];
   R [F "net"; F "avail1"] 888 I64 [];
   R [F "net"; F "avail2"] 896 I64 [];
   R [F "net"; F "cfuture"; E] 904 I64 [D 4 8 None];
   R [F "gpu"; F "state"] 936 Chr [];
   R [F "gpu"; F "cfuture"] 937 (Text 3) [];
   R [F "gpu"; F "nrgpus"] 940 I16 [];
   R [F "gpu"; F "gpulist"] 944 I32 [];
   R [F "gpu"; F "gpubusy"] 948 I32 [];
   R [F "gpu"; F "membusy"] 952 I32 [];
   R [F "gpu"; F "timems"] 960 I64 [];
   R [F "gpu"; F "memnow"] 968 I64 [];
   R [F "gpu"; F "memcum"] 976 I64 [];
   R [F "gpu"; F "sample"] 984 I64 []].

Definition header_2_11 : list row := [
   R [F "magic"] 0 U32 [];
   R [F "aversion"] 4 U16 [];
   R [F "future1"] 6 U16 [];
   R [F "future2"] 8 U16 [];
   R [F "rawheadlen"] 10 U16 [];
   R [F "rawreclen"] 12 U16 [];
   R [F "hertz"] 14 U16 [];
   R [F "pidwidth"] 16 U16 [];
   R [F "sfuture"; E] 18 U16 [D 5 2 None];
   R [F "sstatlen"] 28 U32 [];
   R [F "tstatlen"] 32 U32 [];
   R [F "utsname"; F "sysname"] 36 (Text 65) [];
   R [F "utsname"; F "nodename"] 101 (Text 65) [];
   R [F "utsname"; F "release"] 166 (Text 65) [];
   R [F "utsname"; F "version"] 231 (Text 65) [];
   R [F "utsname"; F "machine"] 296 (Text 65) [];
   R [F "utsname"; F "domain"] 361 (Text 65) [];
   R [F "cfuture"] 426 (Text 8) [];
   R [F "pagesize"] 436 U32 [];
   R [F "supportflags"] 440 I32 [];
   R [F "osrel"] 444 I32 [];
   R [F "osvers"] 448 I32 [];
   R [F "ossub"] 452 I32 [];
   R [F "cstatlen"] 456 I32 [];
   R [F "ifuture"; E] 460 I32 [D 5 4 None]].

Definition sstat_2_11 : list row := [
   R [F "cpu"; F "nrcpu"] 0 I64 [];
   R [F "cpu"; F "devint"] 8 I64 [];
   R [F "cpu"; F "csw"] 16 I64 [];
   R [F "cpu"; F "nprocs"] 24 I64 [];
   R [F "cpu"; F "lavg1"] 32 F32 [];
   R [F "cpu"; F "lavg5"] 36 F32 [];
   R [F "cpu"; F "lavg15"] 40 F32 [];
   R [F "cpu"; F "cfuture"; E] 48 I64 [D 4 8 None];
   R [F "cpu"; F "all"; F "cpunr"] 80 I32 [];
   R [F "cpu"; F "all"; F "stime"] 88 I64 [];
   R [F "cpu"; F "all"; F "utime"] 96 I64 [];
   R [F "cpu"; F "all"; F "ntime"] 104 I64 [];
   R [F "cpu"; F "all"; F "itime"] 112 I64 [];
   R [F "cpu"; F "all"; F "wtime"] 120 I64 [];
   R [F "cpu"; F "all"; F "Itime"] 128 I64 [];
   R [F "cpu"; F "all"; F "Stime"] 136 I64 [];
   R [F "cpu"; F "all"; F "steal"] 144 I64 [];
   R [F "cpu"; F "all"; F "guest"] 152 I64 [];
   R [F "cpu"; F "all"; F "freqcnt"; F "maxfreq"] 160 I64 [];
   R [F "cpu"; F "all"; F "freqcnt"; F "cnt"] 168 I64 [];
   R [F "cpu"; F "all"; F "freqcnt"; F "ticks"] 176 I64 [];
   R [F "cpu"; F "all"; F "instr"] 184 I64 [];
   R [F "cpu"; F "all"; F "cycle"] 192 I64 [];
   R [F "cpu"; F "all"; F "cfuture"; E] 200 I64 [D 6 8 None];
   R [F "cpu"; F "cpu"; E; F "cpunr"] 248 I32 [D 2048 168 (Some (0, I64))];
   R [F "cpu"; F "cpu"; E; F "stime"] 256 I64 [D 2048 168 (Some (0, I64))];
   R [F "cpu"; F "cpu"; E; F "utime"] 264 I64 [D 2048 168 (Some (0, I64))];
   R [F "cpu"; F "cpu"; E; F "ntime"] 272 I64 [D 2048 168 (Some (0, I64))];
   R [F "cpu"; F "cpu"; E; F "itime"] 280 I64 [D 2048 168 (Some (0, I64))];
   R [F "cpu"; F "cpu"; E; F "wtime"] 288 I64 [D 2048 168 (Some (0, I64))];
   R [F "cpu"; F "cpu"; E; F "Itime"] 296 I64 [D 2048 168 (Some (0, I64))];
   R [F "cpu"; F "cpu"; E; F "Stime"] 304 I64 [D 2048 168 (Some (0, I64))];
   R [F "cpu"; F "cpu"; E; F "steal"] 312 I64 [D 2048 168 (Some (0, I64))];
   R [F "cpu"; F "cpu"; E; F "guest"] 320 I64 [D 2048 168 (Some (0, I64))];
   R [F "cpu"; F "cpu"; E; F "freqcnt"; F "maxfreq"] 328 I64 [D 2048 168 (Some (0, I64))];
   R [F "cpu"; F "cpu"; E; F "freqcnt"; F "cnt"] 336 I64 [D 2048 168 (Some (0, I64))];
   R [F "cpu"; F "cpu"; E; F "freqcnt"; F "ticks"] 344 I64 [D 2048 168 (Some (0, I64))];
   R [F "cpu"; F "cpu"; E; F "instr"] 352 I64 [D 2048 168 (Some (0, I64))];
   R [F "cpu"; F "cpu"; E; F "cycle"] 360 I64 [D 2048 168 (Some (0, I64))];
   R [F "cpu"; F "cpu"; E; F "cfuture"; E] 368 I64 [D 2048 168 (Some (0, I64)); D 6 8 None];
   R [F "mem"; F "physmem"] 344312 I64 [];
   R [F "mem"; F "freemem"] 344320 I64 [];
   R [F "mem"; F "buffermem"] 344328 I64 [];
   R [F "mem"; F "slabmem"] 344336 I64 [];
   R [F "mem"; F "cachemem"] 344344 I64 [];
   R [F "mem"; F "cachedrt"] 344352 I64 [];
   R [F "mem"; F "totswap"] 344360 I64 [];
   R [F "mem"; F "freeswap"] 344368 I64 [];
   R [F "mem"; F "pgscans"] 344376 I64 [];
   R [F "mem"; F "pgsteal"] 344384 I64 [];
   R [F "mem"; F "allocstall"] 344392 I64 [];
   R [F "mem"; F "swouts"] 344400 I64 [];
   R [F "mem"; F "swins"] 344408 I64 [];
   R [F "mem"; F "tcpsock"] 344416 I64 [];
   R [F "mem"; F "udpsock"] 344424 I64 [];
   R [F "mem"; F "commitlim"] 344432 I64 [];
   R [F "mem"; F "committed"] 344440 I64 [];
   R [F "mem"; F "shmem"] 344448 I64 [];
   R [F "mem"; F "shmrss"] 344456 I64 [];
   R [F "mem"; F "shmswp"] 344464 I64 [];
   R [F "mem"; F "slabreclaim"] 344472 I64 [];
   R [F "mem"; F "stothugepage"] 344480 I64 [];
   R [F "mem"; F "sfreehugepage"] 344488 I64 [];
   R [F "mem"; F "shugepagesz"] 344496 I64 [];
   R [F "mem"; F "vmwballoon"] 344504 I64 [];
   R [F "mem"; F "zfsarcsize"] 344512 I64 [];
   R [F "mem"; F "swapcached"] 344520 I64 [];
   R [F "mem"; F "ksmsharing"] 344528 I64 [];
   R [F "mem"; F "ksmshared"] 344536 I64 [];
   R [F "mem"; F "zswapped"] 344544 I64 [];
   R [F "mem"; F "zswap"] 344552 I64 [];
   R [F "mem"; F "oomkills"] 344560 I64 [];
   R [F "mem"; F "compactstall"] 344568 I64 [];
   R [F "mem"; F "pgmigrate"] 344576 I64 [];
   R [F "mem"; F "numamigrate"] 344584 I64 [];
   R [F "mem"; F "pgouts"] 344592 I64 [];
   R [F "mem"; F "pgins"] 344600 I64 [];
   R [F "mem"; F "pagetables"] 344608 I64 [];
   R [F "mem"; F "zswouts"] 344616 I64 [];
   R [F "mem"; F "zswins"] 344624 I64 [];
   R [F "mem"; F "ltothugepage"] 344632 I64 [];
   R [F "mem"; F "lfreehugepage"] 344640 I64 [];
   R [F "mem"; F "lhugepagesz"] 344648 I64 [];
   R [F "mem"; F "availablemem"] 344656 I64 [];
   R [F "mem"; F "anonhugepage"] 344664 I64 [];
   R [F "mem"; F "cfuture"; E] 344672 I64 [D 5 8 None];
   R [F "net"; F "ipv4"; F "Forwarding"] 344712 I64 [];
   R [F "net"; F "ipv4"; F "DefaultTTL"] 344720 I64 [];
   R [F "net"; F "ipv4"; F "InReceives"] 344728 I64 [];
   R [F "net"; F "ipv4"; F "InHdrErrors"] 344736 I64 [];
   R [F "net"; F "ipv4"; F "InAddrErrors"] 344744 I64 [];
   R [F "net"; F "ipv4"; F "ForwDatagrams"] 344752 I64 [];
   R [F "net"; F "ipv4"; F "InUnknownProtos"] 344760 I64 [];
   R [F "net"; F "ipv4"; F "InDiscards"] 344768 I64 [];
   R [F "net"; F "ipv4"; F "InDelivers"] 344776 I64 [];
   R [F "net"; F "ipv4"; F "OutRequests"] 344784 I64 [];
   R [F "net"; F "ipv4"; F "OutDiscards"] 344792 I64 [];
   R [F "net"; F "ipv4"; F "OutNoRoutes"] 344800 I64 [];
   R [F "net"; F "ipv4"; F "ReasmTimeout"] 344808 I64 [];
   R [F "net"; F "ipv4"; F "ReasmReqds"] 344816 I64 [];
   R [F "net"; F "ipv4"; F "ReasmOKs"] 344824 I64 [];
   R [F "net"; F "ipv4"; F "ReasmFails"] 344832 I64 [];
   R [F "net"; F "ipv4"; F "FragOKs"] 344840 I64 [];
   R [F "net"; F "ipv4"; F "FragFails"] 344848 I64 [];
   R [F "net"; F "ipv4"; F "FragCreates"] 344856 I64 [];
   R [F "net"; F "icmpv4"; F "InMsgs"] 344864 I64 [];
   R [F "net"; F "icmpv4"; F "InErrors"] 344872 I64 [];
   R [F "net"; F "icmpv4"; F "InCsumErrors"] 344880 I64 [];
   R [F "net"; F "icmpv4"; F "InDestUnreachs"] 344888 I64 [];
   R [F "net"; F "icmpv4"; F "InTimeExcds"] 344896 I64 [];
   R [F "net"; F "icmpv4"; F "InParmProbs"] 344904 I64 [];
   R [F "net"; F "icmpv4"; F "InSrcQuenchs"] 344912 I64 [];
   R [F "net"; F "icmpv4"; F "InRedirects"] 344920 I64 [];
   R [F "net"; F "icmpv4"; F "InEchos"] 344928 I64 [];
   R [F "net"; F "icmpv4"; F "InEchoReps"] 344936 I64 [];
   R [F "net"; F "icmpv4"; F "InTimestamps"] 344944 I64 [];
   R [F "net"; F "icmpv4"; F "InTimestampReps"] 344952 I64 [];
   R [F "net"; F "icmpv4"; F "InAddrMasks"] 344960 I64 [];
   R [F "net"; F "icmpv4"; F "InAddrMaskReps"] 344968 I64 [];
   R [F "net"; F "icmpv4"; F "OutMsgs"] 344976 I64 [];
   R [F "net"; F "icmpv4"; F "OutErrors"] 344984 I64 [];
   R [F "net"; F "icmpv4"; F "OutDestUnreachs"] 344992 I64 [];
   R [F "net"; F "icmpv4"; F "OutTimeExcds"] 345000 I64 [];
   R [F "net"; F "icmpv4"; F "OutParmProbs"] 345008 I64 [];
   R [F "net"; F "icmpv4"; F "OutSrcQuenchs"] 345016 I64 [];
   R [F "net"; F "icmpv4"; F "OutRedirects"] 345024 I64 [];
   R [F "net"; F "icmpv4"; F "OutEchos"] 345032 I64 [];
   R [F "net"; F "icmpv4"; F "OutEchoReps"] 345040 I64 [];
   R [F "net"; F "icmpv4"; F "OutTimestamps"] 345048 I64 [];
   R [F "net"; F "icmpv4"; F "OutTimestampReps"] 345056 I64 [];
   R [F "net"; F "icmpv4"; F "OutAddrMasks"] 345064 I64 [];
   R [F "net"; F "icmpv4"; F "OutAddrMaskReps"] 345072 I64 [];
   R [F "net"; F "udpv4"; F "InDatagrams"] 345080 I64 [];
   R [F "net"; F "udpv4"; F "NoPorts"] 345088 I64 [];
   R [F "net"; F "udpv4"; F "InErrors"] 345096 I64 [];
   R [F "net"; F "udpv4"; F "OutDatagrams"] 345104 I64 [];
   R [F "net"; F "ipv6"; F "Ip6InReceives"] 345112 I64 [];
   R [F "net"; F "ipv6"; F "Ip6InHdrErrors"] 345120 I64 [];
   R [F "net"; F "ipv6"; F "Ip6InTooBigErrors"] 345128 I64 [];
   R [F "net"; F "ipv6"; F "Ip6InNoRoutes"] 345136 I64 [];
   R [F "net"; F "ipv6"; F "Ip6InAddrErrors"] 345144 I64 [];
   R [F "net"; F "ipv6"; F "Ip6InUnknownProtos"] 345152 I64 [];
   R [F "net"; F "ipv6"; F "Ip6InTruncatedPkts"] 345160 I64 [];
   R [F "net"; F "ipv6"; F "Ip6InDiscards"] 345168 I64 [];
   R [F "net"; F "ipv6"; F "Ip6InDelivers"] 345176 I64 [];
   R [F "net"; F "ipv6"; F "Ip6OutForwDatagrams"] 345184 I64 [];
   R [F "net"; F "ipv6"; F "Ip6OutRequests"] 345192 I64 [];
   R [F "net"; F "ipv6"; F "Ip6OutDiscards"] 345200 I64 [];
   R [F "net"; F "ipv6"; F "Ip6OutNoRoutes"] 345208 I64 [];
   R [F "net"; F "ipv6"; F "Ip6ReasmTimeout"] 345216 I64 [];
   R [F "net"; F "ipv6"; F "Ip6ReasmReqds"] 345224 I64 [];
   R [F "net"; F "ipv6"; F "Ip6ReasmOKs"] 345232 I64 [];
   R [F "net"; F "ipv6"; F "Ip6ReasmFails"] 345240 I64 [];
   R [F "net"; F "ipv6"; F "Ip6FragOKs"] 345248 I64 [];
   R [F "net"; F "ipv6"; F "Ip6FragFails"] 345256 I64 [];
   R [F "net"; F "ipv6"; F "Ip6FragCreates"] 345264 I64 [];
   R [F "net"; F "ipv6"; F "Ip6InMcastPkts"] 345272 I64 [];
   R [F "net"; F "ipv6"; F "Ip6OutMcastPkts"] 345280 I64 [];
   R [F "net"; F "icmpv6"; F "Icmp6InMsgs"] 345288 I64 [];
   R [F "net"; F "icmpv6"; F "Icmp6InErrors"] 345296 I64 [];
   R [F "net"; F "icmpv6"; F "Icmp6InDestUnreachs"] 345304 I64 [];
   R [F "net"; F "icmpv6"; F "Icmp6InPktTooBigs"] 345312 I64 [];
   R [F "net"; F "icmpv6"; F "Icmp6InTimeExcds"] 345320 I64 [];
   R [F "net"; F "icmpv6"; F "Icmp6InParmProblems"] 345328 I64 [];
   R [F "net"; F "icmpv6"; F "Icmp6InEchos"] 345336 I64 [];
   R [F "net"; F "icmpv6"; F "Icmp6InEchoReplies"] 345344 I64 [];
   R [F "net"; F "icmpv6"; F "Icmp6InGroupMembQueries"] 345352 I64 [];
   R [F "net"; F "icmpv6"; F "Icmp6InGroupMembResponses"] 345360 I64 [];
   R [F "net"; F "icmpv6"; F "Icmp6InGroupMembReductions"] 345368 I64 [];
   R [F "net"; F "icmpv6"; F "Icmp6InRouterSolicits"] 345376 I64 [];
   R [F "net"; F "icmpv6"; F "Icmp6InRouterAdvertisements"] 345384 I64 [];
   R [F "net"; F "icmpv6"; F "Icmp6InNeighborSolicits"] 345392 I64 [];
   R [F "net"; F "icmpv6"; F "Icmp6InNeighborAdvertisements"] 345400 I64 [];
   R [F "net"; F "icmpv6"; F "Icmp6InRedirects"] 345408 I64 [];
   R [F "net"; F "icmpv6"; F "Icmp6OutMsgs"] 345416 I64 [];
   R [F "net"; F "icmpv6"; F "Icmp6OutDestUnreachs"] 345424 I64 [];
   R [F "net"; F "icmpv6"; F "Icmp6OutPktTooBigs"] 345432 I64 [];
   R [F "net"; F "icmpv6"; F "Icmp6OutTimeExcds"] 345440 I64 [];
   R [F "net"; F "icmpv6"; F "Icmp6OutParmProblems"] 345448 I64 [];
   R [F "net"; F "icmpv6"; F "Icmp6OutEchoReplies"] 345456 I64 [];
   R [F "net"; F "icmpv6"; F "Icmp6OutRouterSolicits"] 345464 I64 [];
   R [F "net"; F "icmpv6"; F "Icmp6OutNeighborSolicits"] 345472 I64 [];
   R [F "net"; F "icmpv6"; F "Icmp6OutNeighborAdvertisements"] 345480 I64 [];
   R [F "net"; F "icmpv6"; F "Icmp6OutRedirects"] 345488 I64 [];
   R [F "net"; F "icmpv6"; F "Icmp6OutGroupMembResponses"] 345496 I64 [];
   R [F "net"; F "icmpv6"; F "Icmp6OutGroupMembReductions"] 345504 I64 [];
   R [F "net"; F "udpv6"; F "Udp6InDatagrams"] 345512 I64 [];
   R [F "net"; F "udpv6"; F "Udp6NoPorts"] 345520 I64 [];
   R [F "net"; F "udpv6"; F "Udp6InErrors"] 345528 I64 [];
   R [F "net"; F "udpv6"; F "Udp6OutDatagrams"] 345536 I64 [];
   R [F "net"; F "tcp"; F "RtoAlgorithm"] 345544 I64 [];
   R [F "net"; F "tcp"; F "RtoMin"] 345552 I64 [];
   R [F "net"; F "tcp"; F "RtoMax"] 345560 I64 [];
   R [F "net"; F "tcp"; F "MaxConn"] 345568 I64 [];
   R [F "net"; F "tcp"; F "ActiveOpens"] 345576 I64 [];
   R [F "net"; F "tcp"; F "PassiveOpens"] 345584 I64 [];
   R [F "net"; F "tcp"; F "AttemptFails"] 345592 I64 [];
   R [F "net"; F "tcp"; F "EstabResets"] 345600 I64 [];
   R [F "net"; F "tcp"; F "CurrEstab"] 345608 I64 [];
   R [F "net"; F "tcp"; F "InSegs"] 345616 I64 [];
   R [F "net"; F "tcp"; F "OutSegs"] 345624 I64 [];
   R [F "net"; F "tcp"; F "RetransSegs"] 345632 I64 [];
   R [F "net"; F "tcp"; F "InErrs"] 345640 I64 [];
   R [F "net"; F "tcp"; F "OutRsts"] 345648 I64 [];
   R [F "net"; F "tcp"; F "InCsumErrors"] 345656 I64 [];
   R [F "intf"; F "nrintf"] 345664 I32 [];
   R [F "intf"; F "intf"; E; F "name"] 345672 (Text 16) [D 128 272 (Some (345664, I32))];
   R [F "intf"; F "intf"; E; F "rbyte"] 345688 I64 [D 128 272 (Some (345664, I32))];
   R [F "intf"; F "intf"; E; F "rpack"] 345696 I64 [D 128 272 (Some (345664, I32))];
   R [F "intf"; F "intf"; E; F "rerrs"] 345704 I64 [D 128 272 (Some (345664, I32))];
   R [F "intf"; F "intf"; E; F "rdrop"] 345712 I64 [D 128 272 (Some (345664, I32))];
   R [F "intf"; F "intf"; E; F "rfifo"] 345720 I64 [D 128 272 (Some (345664, I32))];
   R [F "intf"; F "intf"; E; F "rframe"] 345728 I64 [D 128 272 (Some (345664, I32))];
   R [F "intf"; F "intf"; E; F "rcompr"] 345736 I64 [D 128 272 (Some (345664, I32))];
   R [F "intf"; F "intf"; E; F "rmultic"] 345744 I64 [D 128 272 (Some (345664, I32))];
   R [F "intf"; F "intf"; E; F "rfuture"; E] 345752 I64 [D 128 272 (Some (345664, I32)); D 4 8 None];
   R [F "intf"; F "intf"; E; F "sbyte"] 345784 I64 [D 128 272 (Some (345664, I32))];
   R [F "intf"; F "intf"; E; F "spack"] 345792 I64 [D 128 272 (Some (345664, I32))];
   R [F "intf"; F "intf"; E; F "serrs"] 345800 I64 [D 128 272 (Some (345664, I32))];
   R [F "intf"; F "intf"; E; F "sdrop"] 345808 I64 [D 128 272 (Some (345664, I32))];
   R [F "intf"; F "intf"; E; F "sfifo"] 345816 I64 [D 128 272 (Some (345664, I32))];
   R [F "intf"; F "intf"; E; F "scollis"] 345824 I64 [D 128 272 (Some (345664, I32))];
   R [F "intf"; F "intf"; E; F "scarrier"] 345832 I64 [D 128 272 (Some (345664, I32))];
   R [F "intf"; F "intf"; E; F "scompr"] 345840 I64 [D 128 272 (Some (345664, I32))];
   R [F "intf"; F "intf"; E; F "sfuture"; E] 345848 I64 [D 128 272 (Some (345664, I32)); D 4 8 None];
   R [F "intf"; F "intf"; E; F "type"] 345880 Chr [D 128 272 (Some (345664, I32))];
   R [F "intf"; F "intf"; E; F "speed"] 345888 I64 [D 128 272 (Some (345664, I32))];
   R [F "intf"; F "intf"; E; F "speedp"] 345896 I64 [D 128 272 (Some (345664, I32))];
   R [F "intf"; F "intf"; E; F "duplex"] 345904 Chr [D 128 272 (Some (345664, I32))];
   R [F "intf"; F "intf"; E; F "cfuture"; E] 345912 I64 [D 128 272 (Some (345664, I32)); D 4 8 None];
   R [F "memnuma"; F "nrnuma"] 380488 I64 [];
   R [F "memnuma"; F "numa"; E; F "numanr"] 380496 I32 [D 1024 112 (Some (380488, I64))];
   R [F "memnuma"; F "numa"; E; F "frag"] 380500 F32 [D 1024 112 (Some (380488, I64))];
   R [F "memnuma"; F "numa"; E; F "totmem"] 380504 I64 [D 1024 112 (Some (380488, I64))];
   R [F "memnuma"; F "numa"; E; F "freemem"] 380512 I64 [D 1024 112 (Some (380488, I64))];
   R [F "memnuma"; F "numa"; E; F "filepage"] 380520 I64 [D 1024 112 (Some (380488, I64))];
   R [F "memnuma"; F "numa"; E; F "dirtymem"] 380528 I64 [D 1024 112 (Some (380488, I64))];
   R [F "memnuma"; F "numa"; E; F "slabmem"] 380536 I64 [D 1024 112 (Some (380488, I64))];
   R [F "memnuma"; F "numa"; E; F "slabreclaim"] 380544 I64 [D 1024 112 (Some (380488, I64))];
   R [F "memnuma"; F "numa"; E; F "active"] 380552 I64 [D 1024 112 (Some (380488, I64))];
   R [F "memnuma"; F "numa"; E; F "inactive"] 380560 I64 [D 1024 112 (Some (380488, I64))];
   R [F "memnuma"; F "numa"; E; F "shmem"] 380568 I64 [D 1024 112 (Some (380488, I64))];
   R [F "memnuma"; F "numa"; E; F "tothp"] 380576 I64 [D 1024 112 (Some (380488, I64))];
   R [F "memnuma"; F "numa"; E; F "freehp"] 380584 I64 [D 1024 112 (Some (380488, I64))];
   R [F "memnuma"; F "numa"; E; F "cfuture"; E] 380592 I64 [D 1024 112 (Some (380488, I64)); D 2 8 None];
   R [F "cpunuma"; F "nrnuma"] 495184 I64 [];
   R [F "cpunuma"; F "numa"; E; F "numanr"] 495192 I32 [D 1024 104 (Some (495184, I64))];
   R [F "cpunuma"; F "numa"; E; F "nrcpu"] 495200 I64 [D 1024 104 (Some (495184, I64))];
   R [F "cpunuma"; F "numa"; E; F "stime"] 495208 I64 [D 1024 104 (Some (495184, I64))];
   R [F "cpunuma"; F "numa"; E; F "utime"] 495216 I64 [D 1024 104 (Some (495184, I64))];
   R [F "cpunuma"; F "numa"; E; F "ntime"] 495224 I64 [D 1024 104 (Some (495184, I64))];
   R [F "cpunuma"; F "numa"; E; F "itime"] 495232 I64 [D 1024 104 (Some (495184, I64))];
   R [F "cpunuma"; F "numa"; E; F "wtime"] 495240 I64 [D 1024 104 (Some (495184, I64))];
   R [F "cpunuma"; F "numa"; E; F "Itime"] 495248 I64 [D 1024 104 (Some (495184, I64))];
   R [F "cpunuma"; F "numa"; E; F "Stime"] 495256 I64 [D 1024 104 (Some (495184, I64))];
   R [F "cpunuma"; F "numa"; E; F "steal"] 495264 I64 [D 1024 104 (Some (495184, I64))];
   R [F "cpunuma"; F "numa"; E; F "guest"] 495272 I64 [D 1024 104 (Some (495184, I64))];
   R [F "cpunuma"; F "numa"; E; F "cfuture"; E] 495280 I64 [D 1024 104 (Some (495184, I64)); D 2 8 None];
   R [F "dsk"; F "ndsk"] 601688 I32 [];
   R [F "dsk"; F "nmdd"] 601692 I32 [];
   R [F "dsk"; F "nlvm"] 601696 I32 [];
   R [F "dsk"; F "dsk"; E; F "name"] 601704 (Text 32) [D 1024 128 (Some (601688, I32))];
   R [F "dsk"; F "dsk"; E; F "nread"] 601736 I64 [D 1024 128 (Some (601688, I32))];
   R [F "dsk"; F "dsk"; E; F "nrsect"] 601744 I64 [D 1024 128 (Some (601688, I32))];
   R [F "dsk"; F "dsk"; E; F "nwrite"] 601752 I64 [D 1024 128 (Some (601688, I32))];
   R [F "dsk"; F "dsk"; E; F "nwsect"] 601760 I64 [D 1024 128 (Some (601688, I32))];
   R [F "dsk"; F "dsk"; E; F "io_ms"] 601768 I64 [D 1024 128 (Some (601688, I32))];
   R [F "dsk"; F "dsk"; E; F "avque"] 601776 I64 [D 1024 128 (Some (601688, I32))];
   R [F "dsk"; F "dsk"; E; F "ndisc"] 601784 I64 [D 1024 128 (Some (601688, I32))];
   R [F "dsk"; F "dsk"; E; F "ndsect"] 601792 I64 [D 1024 128 (Some (601688, I32))];
   R [F "dsk"; F "dsk"; E; F "inflight"] 601800 I64 [D 1024 128 (Some (601688, I32))];
   R [F "dsk"; F "dsk"; E; F "cfuture"; E] 601808 I64 [D 1024 128 (Some (601688, I32)); D 3 8 None];
   R [F "dsk"; F "mdd"; E; F "name"] 732776 (Text 32) [D 256 128 (Some (601692, I32))];
   R [F "dsk"; F "mdd"; E; F "nread"] 732808 I64 [D 256 128 (Some (601692, I32))];
   R [F "dsk"; F "mdd"; E; F "nrsect"] 732816 I64 [D 256 128 (Some (601692, I32))];
   R [F "dsk"; F "mdd"; E; F "nwrite"] 732824 I64 [D 256 128 (Some (601692, I32))];
   R [F "dsk"; F "mdd"; E; F "nwsect"] 732832 I64 [D 256 128 (Some (601692, I32))];
   R [F "dsk"; F "mdd"; E; F "io_ms"] 732840 I64 [D 256 128 (Some (601692, I32))];
   R [F "dsk"; F "mdd"; E; F "avque"] 732848 I64 [D 256 128 (Some (601692, I32))];
   R [F "dsk"; F "mdd"; E; F "ndisc"] 732856 I64 [D 256 128 (Some (601692, I32))];
   R [F "dsk"; F "mdd"; E; F "ndsect"] 732864 I64 [D 256 128 (Some (601692, I32))];
   R [F "dsk"; F "mdd"; E; F "inflight"] 732872 I64 [D 256 128 (Some (601692, I32))];
   R [F "dsk"; F "mdd"; E; F "cfuture"; E] 732880 I64 [D 256 128 (Some (601692, I32)); D 3 8 None];
   R [F "dsk"; F "lvm"; E; F "name"] 765544 (Text 32) [D 2048 128 (Some (601696, I32))];
   R [F "dsk"; F "lvm"; E; F "nread"] 765576 I64 [D 2048 128 (Some (601696, I32))];
   R [F "dsk"; F "lvm"; E; F "nrsect"] 765584 I64 [D 2048 128 (Some (601696, I32))];
   R [F "dsk"; F "lvm"; E; F "nwrite"] 765592 I64 [D 2048 128 (Some (601696, I32))];
   R [F "dsk"; F "lvm"; E; F "nwsect"] 765600 I64 [D 2048 128 (Some (601696, I32))];
   R [F "dsk"; F "lvm"; E; F "io_ms"] 765608 I64 [D 2048 128 (Some (601696, I32))];
   R [F "dsk"; F "lvm"; E; F "avque"] 765616 I64 [D 2048 128 (Some (601696, I32))];
   R [F "dsk"; F "lvm"; E; F "ndisc"] 765624 I64 [D 2048 128 (Some (601696, I32))];
   R [F "dsk"; F "lvm"; E; F "ndsect"] 765632 I64 [D 2048 128 (Some (601696, I32))];
   R [F "dsk"; F "lvm"; E; F "inflight"] 765640 I64 [D 2048 128 (Some (601696, I32))];
   R [F "dsk"; F "lvm"; E; F "cfuture"; E] 765648 I64 [D 2048 128 (Some (601696, I32)); D 3 8 None];
   R [F "nfs"; F "server"; F "netcnt"] 1027688 I64 [];
   R [F "nfs"; F "server"; F "netudpcnt"] 1027696 I64 [];
   R [F "nfs"; F "server"; F "nettcpcnt"] 1027704 I64 [];
   R [F "nfs"; F "server"; F "nettcpcon"] 1027712 I64 [];
   R [F "nfs"; F "server"; F "rpccnt"] 1027720 I64 [];
   R [F "nfs"; F "server"; F "rpcbadfmt"] 1027728 I64 [];
   R [F "nfs"; F "server"; F "rpcbadaut"] 1027736 I64 [];
   R [F "nfs"; F "server"; F "rpcbadcln"] 1027744 I64 [];
   R [F "nfs"; F "server"; F "rpcread"] 1027752 I64 [];
   R [F "nfs"; F "server"; F "rpcwrite"] 1027760 I64 [];
   R [F "nfs"; F "server"; F "rchits"] 1027768 I64 [];
   R [F "nfs"; F "server"; F "rcmiss"] 1027776 I64 [];
   R [F "nfs"; F "server"; F "rcnoca"] 1027784 I64 [];
   R [F "nfs"; F "server"; F "nrbytes"] 1027792 I64 [];
   R [F "nfs"; F "server"; F "nwbytes"] 1027800 I64 [];
   R [F "nfs"; F "server"; F "future"; E] 1027808 I64 [D 8 8 None];
   R [F "nfs"; F "client"; F "rpccnt"] 1027872 I64 [];
   R [F "nfs"; F "client"; F "rpcretrans"] 1027880 I64 [];
   R [F "nfs"; F "client"; F "rpcautrefresh"] 1027888 I64 [];
   R [F "nfs"; F "client"; F "rpcread"] 1027896 I64 [];
   R [F "nfs"; F "client"; F "rpcwrite"] 1027904 I64 [];
   R [F "nfs"; F "client"; F "future"; E] 1027912 I64 [D 8 8 None];
   R [F "nfs"; F "nfsmounts"; F "nrmounts"] 1027976 I32 [];
   R [F "nfs"; F "nfsmounts"; F "nfsmnt"; E; F "mountdev"] 1027984 (Text 128) [D 64 264 (Some (1027976, I32))];
   R [F "nfs"; F "nfsmounts"; F "nfsmnt"; E; F "age"] 1028112 I64 [D 64 264 (Some (1027976, I32))];
   R [F "nfs"; F "nfsmounts"; F "nfsmnt"; E; F "bytesread"] 1028120 I64 [D 64 264 (Some (1027976, I32))];
   R [F "nfs"; F "nfsmounts"; F "nfsmnt"; E; F "byteswrite"] 1028128 I64 [D 64 264 (Some (1027976, I32))];
   R [F "nfs"; F "nfsmounts"; F "nfsmnt"; E; F "bytesdread"] 1028136 I64 [D 64 264 (Some (1027976, I32))];
   R [F "nfs"; F "nfsmounts"; F "nfsmnt"; E; F "bytesdwrite"] 1028144 I64 [D 64 264 (Some (1027976, I32))];
   R [F "nfs"; F "nfsmounts"; F "nfsmnt"; E; F "bytestotread"] 1028152 I64 [D 64 264 (Some (1027976, I32))];
   R [F "nfs"; F "nfsmounts"; F "nfsmnt"; E; F "bytestotwrite"] 1028160 I64 [D 64 264 (Some (1027976, I32))];
   R [F "nfs"; F "nfsmounts"; F "nfsmnt"; E; F "pagesmread"] 1028168 I64 [D 64 264 (Some (1027976, I32))];
   R [F "nfs"; F "nfsmounts"; F "nfsmnt"; E; F "pagesmwrite"] 1028176 I64 [D 64 264 (Some (1027976, I32))];
   R [F "nfs"; F "nfsmounts"; F "nfsmnt"; E; F "future"; E] 1028184 I64 [D 64 264 (Some (1027976, I32)); D 8 8 None];
   R [F "cfs"; F "nrcontainer"] 1044880 I32 [];
   R [F "cfs"; F "cont"; E; F "ctid"] 1044888 U64 [D 128 56 (Some (1044880, I32))];
   R [F "cfs"; F "cont"; E; F "numproc"] 1044896 U64 [D 128 56 (Some (1044880, I32))];
   R [F "cfs"; F "cont"; E; F "system"] 1044904 I64 [D 128 56 (Some (1044880, I32))];
   R [F "cfs"; F "cont"; E; F "user"] 1044912 I64 [D 128 56 (Some (1044880, I32))];
   R [F "cfs"; F "cont"; E; F "nice"] 1044920 I64 [D 128 56 (Some (1044880, I32))];
   R [F "cfs"; F "cont"; E; F "uptime"] 1044928 I64 [D 128 56 (Some (1044880, I32))];
   R [F "cfs"; F "cont"; E; F "physpages"] 1044936 I64 [D 128 56 (Some (1044880, I32))];
   R [F "psi"; F "present"] 1052056 Chr [];
   R [F "psi"; F "future"] 1052057 (Text 3) [];
   R [F "psi"; F "cpusome"; F "avg10"] 1052064 F32 [];
   R [F "psi"; F "cpusome"; F "avg60"] 1052068 F32 [];
   R [F "psi"; F "cpusome"; F "avg300"] 1052072 F32 [];
   R [F "psi"; F "cpusome"; F "total"] 1052080 I64 [];
   R [F "psi"; F "memsome"; F "avg10"] 1052088 F32 [];
   R [F "psi"; F "memsome"; F "avg60"] 1052092 F32 [];
   R [F "psi"; F "memsome"; F "avg300"] 1052096 F32 [];
   R [F "psi"; F "memsome"; F "total"] 1052104 I64 [];
   R [F "psi"; F "memfull"; F "avg10"] 1052112 F32 [];
   R [F "psi"; F "memfull"; F "avg60"] 1052116 F32 [];
   R [F "psi"; F "memfull"; F "avg300"] 1052120 F32 [];
   R [F "psi"; F "memfull"; F "total"] 1052128 I64 [];
   R [F "psi"; F "iosome"; F "avg10"] 1052136 F32 [];
   R [F "psi"; F "iosome"; F "avg60"] 1052140 F32 [];
   R [F "psi"; F "iosome"; F "avg300"] 1052144 F32 [];
   R [F "psi"; F "iosome"; F "total"] 1052152 I64 [];
   R [F "psi"; F "iofull"; F "avg10"] 1052160 F32 [];
   R [F "psi"; F "iofull"; F "avg60"] 1052164 F32 [];
   R [F "psi"; F "iofull"; F "avg300"] 1052168 F32 [];
   R [F "psi"; F "iofull"; F "total"] 1052176 I64 [];
   R [F "gpu"; F "nrgpus"] 1052184 I32 [];
   R [F "gpu"; F "gpu"; E; F "taskstats"] 1052192 Chr [D 32 88 (Some (1052184, I32))];
   R [F "gpu"; F "gpu"; E; F "nrprocs"] 1052193 U8 [D 32 88 (Some (1052184, I32))];
   R [F "gpu"; F "gpu"; E; F "type"] 1052194 (Text 13) [D 32 88 (Some (1052184, I32))];
   R [F "gpu"; F "gpu"; E; F "busid"] 1052207 (Text 13) [D 32 88 (Some (1052184, I32))];
   R [F "gpu"; F "gpu"; E; F "gpunr"] 1052220 I32 [D 32 88 (Some (1052184, I32))];
   R [F "gpu"; F "gpu"; E; F "gpupercnow"] 1052224 I32 [D 32 88 (Some (1052184, I32))];
   R [F "gpu"; F "gpu"; E; F "mempercnow"] 1052228 I32 [D 32 88 (Some (1052184, I32))];
   R [F "gpu"; F "gpu"; E; F "memtotnow"] 1052232 I64 [D 32 88 (Some (1052184, I32))];
   R [F "gpu"; F "gpu"; E; F "memusenow"] 1052240 I64 [D 32 88 (Some (1052184, I32))];
   R [F "gpu"; F "gpu"; E; F "samples"] 1052248 I64 [D 32 88 (Some (1052184, I32))];
   R [F "gpu"; F "gpu"; E; F "gpuperccum"] 1052256 I64 [D 32 88 (Some (1052184, I32))];
   R [F "gpu"; F "gpu"; E; F "memperccum"] 1052264 I64 [D 32 88 (Some (1052184, I32))];
   R [F "gpu"; F "gpu"; E; F "memusecum"] 1052272 I64 [D 32 88 (Some (1052184, I32))];
   R [F "ifb"; F "nrports"] 1055008 I32 [];
   R [F "ifb"; F "ifb"; E; F "ibname"] 1055016 (Text 12) [D 32 88 (Some (1055008, I32))];
   R [F "ifb"; F "ifb"; E; F "portnr"] 1055028 I16 [D 32 88 (Some (1055008, I32))];
   R [F "ifb"; F "ifb"; E; F "lanes"] 1055030 I16 [D 32 88 (Some (1055008, I32))];
   R [F "ifb"; F "ifb"; E; F "rate"] 1055032 I64 [D 32 88 (Some (1055008, I32))];
   R [F "ifb"; F "ifb"; E; F "rcvb"] 1055040 I64 [D 32 88 (Some (1055008, I32))];
   R [F "ifb"; F "ifb"; E; F "sndb"] 1055048 I64 [D 32 88 (Some (1055008, I32))];
   R [F "ifb"; F "ifb"; E; F "rcvp"] 1055056 I64 [D 32 88 (Some (1055008, I32))];
   R [F "ifb"; F "ifb"; E; F "sndp"] 1055064 I64 [D 32 88 (Some (1055008, I32))];
   R [F "ifb"; F "ifb"; E; F "cfuture"; E] 1055072 I64 [D 32 88 (Some (1055008, I32)); D 4 8 None];
   R [F "llc"; F "nrllcs"] 1057832 I32 [];
   R [F "llc"; F "perllc"; E; F "id"] 1057840 U8 [D 256 24 (Some (1057832, I32))];
   R [F "llc"; F "perllc"; E; F "occupancy"] 1057844 F32 [D 256 24 (Some (1057832, I32))];
   R [F "llc"; F "perllc"; E; F "mbm_local"] 1057848 I64 [D 256 24 (Some (1057832, I32))];
   R [F "llc"; F "perllc"; E; F "mbm_total"] 1057856 I64 [D 256 24 (Some (1057832, I32))];
   R [F "www"; F "accesses"] 1063984 I64 [];
   R [F "www"; F "totkbytes"] 1063992 I64 [];
   R [F "www"; F "uptime"] 1064000 I64 [];
   R [F "www"; F "bworkers"] 1064008 I32 [];
   R [F "www"; F "iworkers"] 1064012 I32 []].

Definition tstat_2_11 : list row := [
   R [F "gen"; F "tgid"] 0 I32 [];
   R [F "gen"; F "pid"] 4 I32 [];
   R [F "gen"; F "ppid"] 8 I32 [];
   R [F "gen"; F "ruid"] 12 I32 [];
   R [F "gen"; F "euid"] 16 I32 [];
   R [F "gen"; F "suid"] 20 I32 [];
   R [F "gen"; F "fsuid"] 24 I32 [];
   R [F "gen"; F "rgid"] 28 I32 [];
   R [F "gen"; F "egid"] 32 I32 [];
   R [F "gen"; F "sgid"] 36 I32 [];
   R [F "gen"; F "fsgid"] 40 I32 [];
   R [F "gen"; F "nthr"] 44 I32 [];
   R [F "gen"; F "name"] 48 (Text 16) [];
   R [F "gen"; F "isproc"] 64 Chr [];
   R [F "gen"; F "state"] 65 Chr [];
   R [F "gen"; F "excode"] 68 I32 [];
   R [F "gen"; F "btime"] 72 I64 [];
   R [F "gen"; F "elaps"] 80 I64 [];
   R [F "gen"; F "cmdline"] 88 (Text 256) [];
   R [F "gen"; F "nthrslpi"] 344 I32 [];
   R [F "gen"; F "nthrslpu"] 348 I32 [];
   R [F "gen"; F "nthrrun"] 352 I32 [];
   R [F "gen"; F "nthridle"] 356 I32 [];
   R [F "gen"; F "ctid"] 360 I32 [];
   R [F "gen"; F "vpid"] 364 I32 [];
   R [F "gen"; F "wasinactive"] 368 I32 [];
   R [F "gen"; F "utsname"] 372 (Text 16) [];
   R [F "gen"; F "cgroupix"] 388 I32 [];
   R [F "gen"; F "ifuture"; E] 392 I32 [D 4 4 None];
   R [F "cpu"; F "utime"] 408 I64 [];
   R [F "cpu"; F "stime"] 416 I64 [];
   R [F "cpu"; F "nice"] 424 I32 [];
   R [F "cpu"; F "prio"] 428 I32 [];
   R [F "cpu"; F "rtprio"] 432 I32 [];
   R [F "cpu"; F "policy"] 436 I32 [];
   R [F "cpu"; F "curcpu"] 440 I32 [];
   R [F "cpu"; F "sleepavg"] 444 I32 [];
   R [F "cpu"; F "ifuture"; E] 448 I32 [D 6 4 None];
   R [F "cpu"; F "wchan"] 472 (Text 16) [];
   R [F "cpu"; F "rundelay"] 488 I64 [];
   R [F "cpu"; F "blkdelay"] 496 I64 [];
   R [F "cpu"; F "nvcsw"] 504 I64 [];
   R [F "cpu"; F "nivcsw"] 512 I64 [];
   R [F "cpu"; F "cfuture"; E] 520 I64 [D 3 8 None];
   R [F "dsk"; F "rio"] 544 I64 [];
   R [F "dsk"; F "rsz"] 552 I64 [];
   R [F "dsk"; F "wio"] 560 I64 [];
   R [F "dsk"; F "wsz"] 568 I64 [];
   R [F "dsk"; F "cwsz"] 576 I64 [];
   R [F "dsk"; F "cfuture"; E] 584 I64 [D 4 8 None];
   R [F "mem"; F "minflt"] 616 I64 [];
   R [F "mem"; F "majflt"] 624 I64 [];
   R [F "mem"; F "vexec"] 632 I64 [];
   R [F "mem"; F "vmem"] 640 I64 [];
   R [F "mem"; F "rmem"] 648 I64 [];
   R [F "mem"; F "pmem"] 656 I64 [];
   R [F "mem"; F "vgrow"] 664 I64 [];
   R [F "mem"; F "rgrow"] 672 I64 [];
   R [F "mem"; F "vdata"] 680 I64 [];
   R [F "mem"; F "vstack"] 688 I64 [];
   R [F "mem"; F "vlibs"] 696 I64 [];
   R [F "mem"; F "vswap"] 704 I64 [];
   R [F "mem"; F "vlock"] 712 I64 [];
   R [F "mem"; F "cfuture"; E] 720 I64 [D 7 8 None];
   R [F "net"; F "tcpsnd"] 776 I64 [];
   R [F "net"; F "tcpssz"] 784 I64 [];
   R [F "net"; F "tcprcv"] 792 I64 [];
   R [F "net"; F "tcprsz"] 800 I64 [];
   R [F "net"; F "udpsnd"] 808 I64 [];
   R [F "net"; F "udpssz"] 816 I64 [];
   R [F "net"; F "udprcv"] 824 I64 [];
   R [F "net"; F "udprsz"] 832 I64 [];
   R [F "net"; F "avail1"] 840 I64 [];
   R [F "net"; F "avail2"] 848 I64 [];
   R [F "net"; F "cfuture"; E] 856 I64 [D 4 8 None];
   R [F "gpu"; F "state"] 888 Chr [];
   R [F "gpu"; F "bfuture"] 889 (Text 3) [];
   R [F "gpu"; F "nrgpus"] 892 I16 [];
   R [F "gpu"; F "gpulist"] 896 I32 [];
   R [F "gpu"; F "gpubusy"] 900 I32 [];
   R [F "gpu"; F "membusy"] 904 I32 [];
   R [F "gpu"; F "timems"] 912 I64 [];
   R [F "gpu"; F "memnow"] 920 I64 [];
   R [F "gpu"; F "memcum"] 928 I64 [];
   R [F "gpu"; F "sample"] 936 I64 [];
   R [F "gpu"; F "cfuture"; E] 944 I64 [D 3 8 None]].

Definition cstat_2_11 : list row := [
   R [F "gen"; F "structlen"] 0 I32 [];
   R [F "gen"; F "sequence"] 4 I32 [];
   R [F "gen"; F "parentseq"] 8 I32 [];
   R [F "gen"; F "depth"] 12 I32 [];
   R [F "gen"; F "nprocs"] 16 I32 [];
   R [F "gen"; F "procsbelow"] 20 I32 [];
   R [F "gen"; F "namelen"] 24 I32 [];
   R [F "gen"; F "fullnamelen"] 28 I32 [];
   R [F "gen"; F "ifuture"; E] 32 I32 [D 4 4 None];
   R [F "gen"; F "namehash"] 48 I64 [];
   R [F "gen"; F "lfuture"; E] 56 I64 [D 4 8 None];
   R [F "conf"; F "cpuweight"] 88 I32 [];
   R [F "conf"; F "cpumax"] 92 I32 [];
   R [F "conf"; F "memmax"] 96 I64 [];
   R [F "conf"; F "swpmax"] 104 I64 [];
   R [F "conf"; F "dskweight"] 112 I32 [];
   R [F "conf"; F "ifuture"; E] 116 I32 [D 5 4 None];
   R [F "conf"; F "cfuture"; E] 136 I64 [D 5 8 None];
   R [F "cpu"; F "utime"] 176 I64 [];
   R [F "cpu"; F "stime"] 184 I64 [];
   R [F "cpu"; F "somepres"] 192 I64 [];
   R [F "cpu"; F "fullpres"] 200 I64 [];
   R [F "cpu"; F "cfuture"; E] 208 I64 [D 5 8 None];
   R [F "mem"; F "current"] 248 I64 [];
   R [F "mem"; F "anon"] 256 I64 [];
   R [F "mem"; F "file"] 264 I64 [];
   R [F "mem"; F "kernel"] 272 I64 [];
   R [F "mem"; F "shmem"] 280 I64 [];
   R [F "mem"; F "somepres"] 288 I64 [];
   R [F "mem"; F "fullpres"] 296 I64 [];
   R [F "mem"; F "cfuture"; E] 304 I64 [D 5 8 None];
   R [F "dsk"; F "rbytes"] 344 I64 [];
   R [F "dsk"; F "wbytes"] 352 I64 [];
   R [F "dsk"; F "rios"] 360 I64 [];
   R [F "dsk"; F "wios"] 368 I64 [];
   R [F "dsk"; F "somepres"] 376 I64 [];
   R [F "dsk"; F "fullpres"] 384 I64 [];
   R [F "dsk"; F "cfuture"; E] 392 I64 [D 5 8 None];
   R [F "cgname"] 432 (Text 0) []].

(** The rows of a part of a log of the version with the given name. *)
Definition format (p : part) (version : string) : list row :=
  for_version version
    match p with
    | PHeader => [("1.26", header_1_26); ("2.3", header_2_3); ("2.4", header_2_3); ("2.5", header_2_3); ("2.6", header_2_3); ("2.7", header_2_3); ("2.8", header_2_8); ("2.9", header_2_8); ("2.10", header_2_8); ("2.11", header_2_11); ("2.12", header_2_11)]
    | PRecord => [("1.26", record_1_26); ("2.3", record_2_3); ("2.4", record_2_3); ("2.5", record_2_3); ("2.6", record_2_3); ("2.7", record_2_3); ("2.8", record_2_8); ("2.9", record_2_8); ("2.10", record_2_10); ("2.11", record_2_8); ("2.12", record_2_8)]
    | PSStat => [("1.26", sstat_1_26); ("2.3", sstat_2_3); ("2.4", sstat_2_4); ("2.5", sstat_2_4); ("2.6", sstat_2_6); ("2.7", sstat_2_7); ("2.8", sstat_2_8); ("2.9", sstat_2_8); ("2.10", sstat_2_10); ("2.11", sstat_2_11); ("2.12", sstat_2_11)]
    | PTStat => [("1.26", tstat_1_26); ("2.3", tstat_2_3); ("2.4", tstat_2_4); ("2.5", tstat_2_4); ("2.6", tstat_2_6); ("2.7", tstat_2_6); ("2.8", tstat_2_8); ("2.9", tstat_2_9); ("2.10", tstat_2_10); ("2.11", tstat_2_11); ("2.12", tstat_2_11)]
    | PCStat => [("2.11", cstat_2_11); ("2.12", cstat_2_11)]
    end.
