(** * Struct tables of atoparser/structs/atop_2_12.py

    GENERATED by tools/gen_structs.py from the text of that file; do not edit. *)
From Coq Require Import List ZArith String.
From Verif Require Import PyBase CTypes S_shared S_1_26 S_2_3 S_2_4 S_2_7 S_2_8 S_2_10 S_2_11.
Import ListNotations.
Local Open Scope Z_scope.
Local Open Scope string_scope.

Definition a2_12_ACCTACTIVE : Z := 1. (* structs/atop_2_12.py:32 *)
Definition a2_12_IOSTAT : Z := 4. (* structs/atop_2_12.py:33 *)
Definition a2_12_NETATOP : Z := 16. (* structs/atop_2_12.py:34 *)
Definition a2_12_NETATOPD : Z := 32. (* structs/atop_2_12.py:35 *)
Definition a2_12_CONTAINERSTAT : Z := 64. (* structs/atop_2_12.py:36 *)
Definition a2_12_GPUSTAT : Z := 128. (* structs/atop_2_12.py:37 *)
Definition a2_12_CGROUPV2 : Z := 256. (* structs/atop_2_12.py:38 *)
Definition a2_12_NETATOPBPF : Z := 4096. (* structs/atop_2_12.py:39 *)
Definition a2_12_PNAMLEN : Z := 15. (* structs/atop_2_12.py:42 *)
Definition a2_12_CMDLEN : Z := 255. (* structs/atop_2_12.py:43 *)
Definition a2_12_CGRLEN : Z := 64. (* structs/atop_2_12.py:44 *)
Definition a2_12_UTSLEN : Z := 15. (* structs/atop_2_12.py:45 *)
Definition a2_12_MAXCPU : Z := 2048. (* structs/atop_2_12.py:48 *)
Definition a2_12_MAXDSK : Z := 1024. (* structs/atop_2_12.py:49 *)
Definition a2_12_MAXNUMA : Z := 1024. (* structs/atop_2_12.py:50 *)
Definition a2_12_MAXLVM : Z := 2048. (* structs/atop_2_12.py:51 *)
Definition a2_12_MAXMDD : Z := 256. (* structs/atop_2_12.py:52 *)
Definition a2_12_MAXINTF : Z := 128. (* structs/atop_2_12.py:53 *)
Definition a2_12_MAXCONTAINER : Z := 128. (* structs/atop_2_12.py:54 *)
Definition a2_12_MAXNFSMOUNT : Z := 64. (* structs/atop_2_12.py:55 *)
Definition a2_12_MAXIBPORT : Z := 32. (* structs/atop_2_12.py:56 *)
Definition a2_12_MAXGPU : Z := 32. (* structs/atop_2_12.py:57 *)
Definition a2_12_MAXGPUBUS : Z := 12. (* structs/atop_2_12.py:58 *)
Definition a2_12_MAXGPUTYPE : Z := 12. (* structs/atop_2_12.py:59 *)
Definition a2_12_MAXLLC : Z := 256. (* structs/atop_2_12.py:60 *)
Definition a2_12_MAXDKNAM : Z := 32. (* structs/atop_2_12.py:61 *)
Definition a2_12_MAXIBNAME : Z := 12. (* structs/atop_2_12.py:62 *)
Definition a2_12_Record : ctype := a2_11_Record. (* structs/atop_2_12.py:65 *)
Definition a2_12_MemStat : ctype := a2_11_MemStat. (* structs/atop_2_12.py:68 *)
Definition a2_12_MemPerNUMA : ctype := a2_11_MemPerNUMA. (* structs/atop_2_12.py:71 *)
Definition a2_12_MemNUMA : ctype := a2_11_MemNUMA. (* structs/atop_2_12.py:74 *)
Definition a2_12_CPUPerNUMA : ctype := a2_11_CPUPerNUMA. (* structs/atop_2_12.py:77 *)
Definition a2_12_CPUNUMA : ctype := a2_11_CPUNUMA. (* structs/atop_2_12.py:80 *)
Definition a2_12_FreqCnt : ctype := a1_26_FreqCnt. (* structs/atop_2_12.py:83 *)
Definition a2_12_PerCPU : ctype := a2_7_PerCPU. (* structs/atop_2_12.py:86 *)
Definition a2_12_CPUStat : ctype := a2_7_CPUStat. (* structs/atop_2_12.py:89 *)
Definition a2_12_PerDSK : ctype := a2_8_PerDSK. (* structs/atop_2_12.py:92 *)
Definition a2_12_DSKStat : ctype := a2_8_DSKStat. (* structs/atop_2_12.py:95 *)
Definition a2_12_PerIntf : ctype := a2_3_PerIntf. (* structs/atop_2_12.py:98 *)
Definition a2_12_IntfStat : ctype := a2_3_IntfStat. (* structs/atop_2_12.py:101 *)
Definition a2_12_PerNFSMount : ctype := a2_3_PerNFSMount. (* structs/atop_2_12.py:104 *)
Definition a2_12_Server : ctype := a2_3_Server. (* structs/atop_2_12.py:107 *)
Definition a2_12_Client : ctype := a2_3_Client. (* structs/atop_2_12.py:110 *)
Definition a2_12_NFSMounts : ctype := a2_3_NFSMounts. (* structs/atop_2_12.py:113 *)
Definition a2_12_NFSStat : ctype := a2_3_NFSStat. (* structs/atop_2_12.py:116 *)
Definition a2_12_PSI : ctype := a2_4_PSI. (* structs/atop_2_12.py:119 *)
Definition a2_12_Pressure : ctype := a2_4_Pressure. (* structs/atop_2_12.py:122 *)
Definition a2_12_PerContainer : ctype := a2_3_PerContainer. (* structs/atop_2_12.py:125 *)
Definition a2_12_ContStat : ctype := a2_3_ContStat. (* structs/atop_2_12.py:128 *)
Definition a2_12_WWWStat : ctype := a1_26_WWWStat. (* structs/atop_2_12.py:131 *)
Definition a2_12_PerGPU : ctype := a2_4_PerGPU. (* structs/atop_2_12.py:134 *)
Definition a2_12_GPUStat : ctype := a2_4_GPUStat. (* structs/atop_2_12.py:137 *)
Definition a2_12_PerIFB : ctype := a2_11_PerIFB. (* structs/atop_2_12.py:140 *)
Definition a2_12_IFBStat : ctype := a2_11_IFBStat. (* structs/atop_2_12.py:143 *)
Definition a2_12_PerLLC : ctype := a2_8_PerLLC. (* structs/atop_2_12.py:146 *)
Definition a2_12_LLCStat : ctype := a2_8_LLCStat. (* structs/atop_2_12.py:149 *)
Definition a2_12_IPv4Stats : ctype := a1_26_IPv4Stats. (* structs/atop_2_12.py:152 *)
Definition a2_12_ICMPv4Stats : ctype := a2_8_ICMPv4Stats. (* structs/atop_2_12.py:155 *)
Definition a2_12_UDPv4Stats : ctype := a1_26_UDPv4Stats. (* structs/atop_2_12.py:158 *)
Definition a2_12_TCPStats : ctype := a2_10_TCPStats. (* structs/atop_2_12.py:161 *)
Definition a2_12_IPv6Stats : ctype := a1_26_IPv6Stats. (* structs/atop_2_12.py:164 *)
Definition a2_12_ICMPv6Stats : ctype := a1_26_ICMPv6Stats. (* structs/atop_2_12.py:167 *)
Definition a2_12_UDPv6Stats : ctype := a1_26_UDPv6Stats. (* structs/atop_2_12.py:170 *)
Definition a2_12_NETStat : ctype := a2_10_NETStat. (* structs/atop_2_12.py:173 *)
Definition a2_12_SStat : ctype := a2_11_SStat. (* structs/atop_2_12.py:176 *)
Definition a2_12_GEN : ctype := a2_11_GEN. (* structs/atop_2_12.py:179 *)
Definition a2_12_CPU : ctype := a2_11_CPU. (* structs/atop_2_12.py:182 *)
Definition a2_12_DSK : ctype := a1_26_DSK. (* structs/atop_2_12.py:185 *)
Definition a2_12_MEM : ctype := a2_11_MEM. (* structs/atop_2_12.py:188 *)
Definition a2_12_NET : ctype := a2_3_NET. (* structs/atop_2_12.py:191 *)
Definition a2_12_GPU : ctype := a2_11_GPU. (* structs/atop_2_12.py:194 *)
Definition a2_12_TStat : ctype := a2_11_TStat. (* structs/atop_2_12.py:197 *)
Definition a2_12_CGGen : ctype := a2_11_CGGen. (* structs/atop_2_12.py:200 *)
Definition a2_12_CGConf : ctype := a2_11_CGConf. (* structs/atop_2_12.py:203 *)
Definition a2_12_CGCPU : ctype := a2_11_CGCPU. (* structs/atop_2_12.py:206 *)
Definition a2_12_CGMem : ctype := a2_11_CGMem. (* structs/atop_2_12.py:209 *)
Definition a2_12_CGDSK : ctype := a2_11_CGDSK. (* structs/atop_2_12.py:212 *)
Definition a2_12_CStat : ctype := a2_11_CStat. (* structs/atop_2_12.py:215 *)
(** structs/atop_2_12.py:221-234 class Header: fields assigned from atop_2_11.Header. *)
Definition a2_12_Header_fields : list (string * ctype) := a2_11_Header_fields.
Definition a2_12_Header : ctype := TStruct "atop_2_12.Header" a2_12_Header_fields [].
(** structs/atop_2_12.py:221-234: the class attributes. *)
Definition a2_12_class : hclass := {|
  hc_version := "2.12";
  hc_header := a2_12_Header;
  hc_record := a2_12_Record;
  hc_sstat := a2_12_SStat;
  hc_tstat := a2_12_TStat;
  hc_cstat := Some a2_12_CStat |}.
