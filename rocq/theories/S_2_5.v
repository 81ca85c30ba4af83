(** * Struct tables of atoparser/structs/atop_2_5.py

    GENERATED by tools/gen_structs.py from the text of that file; do not edit. *)
From Coq Require Import List ZArith String.
From Verif Require Import PyBase CTypes S_shared S_1_26 S_2_3 S_2_4.
Import ListNotations.
Local Open Scope Z_scope.
Local Open Scope string_scope.

Definition a2_5_ACCTACTIVE : Z := 1. (* structs/atop_2_5.py:25 *)
Definition a2_5_IOSTAT : Z := 4. (* structs/atop_2_5.py:26 *)
Definition a2_5_NETATOP : Z := 16. (* structs/atop_2_5.py:27 *)
Definition a2_5_NETATOPD : Z := 32. (* structs/atop_2_5.py:28 *)
Definition a2_5_DOCKSTAT : Z := 64. (* structs/atop_2_5.py:29 *)
Definition a2_5_GPUSTAT : Z := 128. (* structs/atop_2_5.py:30 *)
Definition a2_5_PNAMLEN : Z := 15. (* structs/atop_2_5.py:33 *)
Definition a2_5_CMDLEN : Z := 255. (* structs/atop_2_5.py:34 *)
Definition a2_5_MAXCPU : Z := 2048. (* structs/atop_2_5.py:37 *)
Definition a2_5_MAXDSK : Z := 1024. (* structs/atop_2_5.py:38 *)
Definition a2_5_MAXLVM : Z := 2048. (* structs/atop_2_5.py:39 *)
Definition a2_5_MAXMDD : Z := 256. (* structs/atop_2_5.py:40 *)
Definition a2_5_MAXINTF : Z := 128. (* structs/atop_2_5.py:41 *)
Definition a2_5_MAXCONTAINER : Z := 128. (* structs/atop_2_5.py:42 *)
Definition a2_5_MAXNFSMOUNT : Z := 64. (* structs/atop_2_5.py:43 *)
Definition a2_5_MAXIBPORT : Z := 32. (* structs/atop_2_5.py:44 *)
Definition a2_5_MAXGPU : Z := 32. (* structs/atop_2_5.py:45 *)
Definition a2_5_MAXGPUBUS : Z := 12. (* structs/atop_2_5.py:46 *)
Definition a2_5_MAXGPUTYPE : Z := 12. (* structs/atop_2_5.py:47 *)
Definition a2_5_MAXDKNAM : Z := 32. (* structs/atop_2_5.py:48 *)
Definition a2_5_MAXIBNAME : Z := 12. (* structs/atop_2_5.py:49 *)
Definition a2_5_Record : ctype := a2_3_Record. (* structs/atop_2_5.py:52 *)
Definition a2_5_MemStat : ctype := a2_3_MemStat. (* structs/atop_2_5.py:55 *)
Definition a2_5_FreqCnt : ctype := a1_26_FreqCnt. (* structs/atop_2_5.py:58 *)
Definition a2_5_PerCPU : ctype := a2_3_PerCPU. (* structs/atop_2_5.py:61 *)
Definition a2_5_CPUStat : ctype := a2_3_CPUStat. (* structs/atop_2_5.py:64 *)
Definition a2_5_PerDSK : ctype := a2_3_PerDSK. (* structs/atop_2_5.py:67 *)
Definition a2_5_DSKStat : ctype := a2_3_DSKStat. (* structs/atop_2_5.py:70 *)
Definition a2_5_PerIntf : ctype := a2_3_PerIntf. (* structs/atop_2_5.py:73 *)
Definition a2_5_IntfStat : ctype := a2_3_IntfStat. (* structs/atop_2_5.py:76 *)
Definition a2_5_PerNFSMount : ctype := a2_3_PerNFSMount. (* structs/atop_2_5.py:79 *)
Definition a2_5_Server : ctype := a2_3_Server. (* structs/atop_2_5.py:82 *)
Definition a2_5_Client : ctype := a2_3_Client. (* structs/atop_2_5.py:85 *)
Definition a2_5_NFSMounts : ctype := a2_3_NFSMounts. (* structs/atop_2_5.py:88 *)
Definition a2_5_NFSStat : ctype := a2_3_NFSStat. (* structs/atop_2_5.py:91 *)
Definition a2_5_PSI : ctype := a2_4_PSI. (* structs/atop_2_5.py:94 *)
Definition a2_5_Pressure : ctype := a2_4_Pressure. (* structs/atop_2_5.py:97 *)
Definition a2_5_PerContainer : ctype := a2_3_PerContainer. (* structs/atop_2_5.py:100 *)
Definition a2_5_ContStat : ctype := a2_3_ContStat. (* structs/atop_2_5.py:103 *)
Definition a2_5_WWWStat : ctype := a1_26_WWWStat. (* structs/atop_2_5.py:106 *)
Definition a2_5_PerGPU : ctype := a2_4_PerGPU. (* structs/atop_2_5.py:109 *)
Definition a2_5_GPUStat : ctype := a2_4_GPUStat. (* structs/atop_2_5.py:112 *)
Definition a2_5_PerIFB : ctype := a2_4_PerIFB. (* structs/atop_2_5.py:115 *)
Definition a2_5_IFBStat : ctype := a2_4_IFBStat. (* structs/atop_2_5.py:118 *)
Definition a2_5_IPv4Stats : ctype := a1_26_IPv4Stats. (* structs/atop_2_5.py:121 *)
Definition a2_5_ICMPv4Stats : ctype := a1_26_ICMPv4Stats. (* structs/atop_2_5.py:124 *)
Definition a2_5_UDPv4Stats : ctype := a1_26_UDPv4Stats. (* structs/atop_2_5.py:127 *)
Definition a2_5_TCPStats : ctype := a1_26_TCPStats. (* structs/atop_2_5.py:130 *)
Definition a2_5_IPv6Stats : ctype := a1_26_IPv6Stats. (* structs/atop_2_5.py:133 *)
Definition a2_5_ICMPv6Stats : ctype := a1_26_ICMPv6Stats. (* structs/atop_2_5.py:136 *)
Definition a2_5_UDPv6Stats : ctype := a1_26_UDPv6Stats. (* structs/atop_2_5.py:139 *)
Definition a2_5_NETStat : ctype := a1_26_NETStat. (* structs/atop_2_5.py:142 *)
Definition a2_5_SStat : ctype := a2_4_SStat. (* structs/atop_2_5.py:145 *)
Definition a2_5_GEN : ctype := a2_3_GEN. (* structs/atop_2_5.py:148 *)
Definition a2_5_CPU : ctype := a1_26_CPU. (* structs/atop_2_5.py:151 *)
Definition a2_5_DSK : ctype := a1_26_DSK. (* structs/atop_2_5.py:154 *)
Definition a2_5_MEM : ctype := a2_3_MEM. (* structs/atop_2_5.py:157 *)
Definition a2_5_NET : ctype := a2_3_NET. (* structs/atop_2_5.py:160 *)
Definition a2_5_GPU : ctype := a2_4_GPU. (* structs/atop_2_5.py:163 *)
Definition a2_5_TStat : ctype := a2_4_TStat. (* structs/atop_2_5.py:166 *)
(** structs/atop_2_5.py:169-177 class Header: fields inherited from the base class atop_2_3.Header. *)
Definition a2_5_Header_fields : list (string * ctype) := a2_3_Header_fields.
Definition a2_5_Header : ctype := TStruct "atop_2_5.Header" a2_5_Header_fields [].
(** structs/atop_2_5.py:169-177: the class attributes. *)
Definition a2_5_class : hclass := {|
  hc_version := "2.5";
  hc_header := a2_5_Header;
  hc_record := a2_5_Record;
  hc_sstat := a2_5_SStat;
  hc_tstat := a2_5_TStat;
  hc_cstat := None |}.
