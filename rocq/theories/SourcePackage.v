(** * Everything that importing the package /repo/atoparser executes, as data

    Generated by tools/gen_source.py from the files named below; do not edit. *)
From Coq Require Import List ZArith String.
From Verif Require Import PySyntax PyPackage.
Import ListNotations.
Local Open Scope string_scope.
Local Open Scope Z_scope.

(** atoparser/__init__.py *)
Definition pk___init__ : list ptop :=
  [
    (* __init__.py:3-3 *) PFrom "atoparser.utils" "CGChainer" "CGChainer";
    (* __init__.py:4-4 *) PFrom "atoparser.utils" "CStat" "CStat";
    (* __init__.py:5-5 *) PFrom "atoparser.utils" "Header" "Header";
    (* __init__.py:6-6 *) PFrom "atoparser.utils" "Record" "Record";
    (* __init__.py:7-7 *) PFrom "atoparser.utils" "SStat" "SStat";
    (* __init__.py:8-8 *) PFrom "atoparser.utils" "TStat" "TStat";
    (* __init__.py:9-9 *) PFrom "atoparser.utils" "generate_statistics" "generate_statistics";
    (* __init__.py:10-10 *) PFrom "atoparser.utils" "get_cstat" "get_cstat";
    (* __init__.py:11-11 *) PFrom "atoparser.utils" "get_header" "get_header";
    (* __init__.py:12-12 *) PFrom "atoparser.utils" "get_record" "get_record";
    (* __init__.py:13-13 *) PFrom "atoparser.utils" "get_sstat" "get_sstat";
    (* __init__.py:14-14 *) PFrom "atoparser.utils" "get_tstat" "get_tstat";
    (* __init__.py:15-15 *) PFrom "atoparser.utils" "struct_to_dict" "struct_to_dict";
    (* __init__.py:17-17 *) PAssign "__version__" (EStr "3.3.1")].

(** atoparser/structs/__init__.py *)
Definition pk_structs___init__ : list ptop :=
  [].

(** atoparser/parsers/__init__.py *)
Definition pk_parsers___init__ : list ptop :=
  [].

(** atoparser/utils.py *)
Definition pk_utils : list ptop :=
  [
    (* utils.py:27-27 *) PFrom "__future__" "annotations" "annotations";
    (* utils.py:29-29 *) PImport "ctypes";
    (* utils.py:30-30 *) PImport "io";
    (* utils.py:31-31 *) PImport "zlib";
    (* utils.py:32-32 *) PFrom "typing" "Union" "Union";
    (* utils.py:34-34 *) PFrom "atoparser.structs" "atop_1_26" "atop_1_26";
    (* utils.py:35-35 *) PFrom "atoparser.structs" "atop_2_3" "atop_2_3";
    (* utils.py:36-36 *) PFrom "atoparser.structs" "atop_2_4" "atop_2_4";
    (* utils.py:37-37 *) PFrom "atoparser.structs" "atop_2_5" "atop_2_5";
    (* utils.py:38-38 *) PFrom "atoparser.structs" "atop_2_6" "atop_2_6";
    (* utils.py:39-39 *) PFrom "atoparser.structs" "atop_2_7" "atop_2_7";
    (* utils.py:40-40 *) PFrom "atoparser.structs" "atop_2_8" "atop_2_8";
    (* utils.py:41-41 *) PFrom "atoparser.structs" "atop_2_9" "atop_2_9";
    (* utils.py:42-42 *) PFrom "atoparser.structs" "atop_2_10" "atop_2_10";
    (* utils.py:43-43 *) PFrom "atoparser.structs" "atop_2_11" "atop_2_11";
    (* utils.py:44-44 *) PFrom "atoparser.structs" "atop_2_12" "atop_2_12";
    (* utils.py:45-45 *) PFrom "atoparser.structs.shared" "pid_t" "pid_t";
    (* utils.py:47-59 *) PAssign "_VERSIONS" (EList [(EName "atop_1_26"); (EName "atop_2_3"); (EName "atop_2_4"); (EName "atop_2_5"); (EName "atop_2_6"); (EName "atop_2_7"); (EName "atop_2_8"); (EName "atop_2_9"); (EName "atop_2_10"); (EName "atop_2_11"); (EName "atop_2_12")]);
    (* utils.py:60-60 *) PAssign "_CSTAT_VERSIONS" (ESlice (EName "_VERSIONS") (Some (EInt 9)) None);
    (* utils.py:62-62 *) PAssign "_DEFAULT_VERSION" (EAttr (EAttr (ESub (EName "_VERSIONS") (ENeg (EInt 1))) "Header") "supported_version");
    (* utils.py:63-63 *) PAnn "_HEADER_BY_VERSION" (ESub (EName "dict") (ETuple [(EName "str"); (ESub (EName "type") (EName "Header"))])) (EDictComp (EAttr (EAttr (EName "module") "Header") "supported_version") (EAttr (EName "module") "Header") "module" (EName "_VERSIONS"));
    (* utils.py:65-65 *) PAssign "Header" (ESub (EName "Union") (ECall (EName "tuple") [(EGenExp (EName "header") "header" (ECall (EAttr (EName "_HEADER_BY_VERSION") "values") [] []))] []));
    (* utils.py:66-66 *) PAssign "Record" (ESub (EName "Union") (ECall (EName "tuple") [(EGenExp (EAttr (EName "header") "Record") "header" (ECall (EAttr (EName "_HEADER_BY_VERSION") "values") [] []))] []));
    (* utils.py:67-67 *) PAssign "SStat" (ESub (EName "Union") (ECall (EName "tuple") [(EGenExp (EAttr (EName "header") "SStat") "header" (ECall (EAttr (EName "_HEADER_BY_VERSION") "values") [] []))] []));
    (* utils.py:68-68 *) PAssign "TStat" (ESub (EName "Union") (ECall (EName "tuple") [(EGenExp (EAttr (EName "header") "TStat") "header" (ECall (EAttr (EName "_HEADER_BY_VERSION") "values") [] []))] []));
    (* utils.py:69-69 *) PAssign "CStat" (ESub (EName "Union") (ECall (EName "tuple") [(EGenExp (EAttr (EName "header") "CStat") "header" (ECall (EAttr (EName "_HEADER_BY_VERSION") "values") [] []))] []));
    (* utils.py:70-70 *) PAssign "CGChainer" (ESub (EName "Union") (ECall (EName "tuple") [(EGenExp (EAttr (EName "header") "CGChainer") "header" (ECall (EAttr (EName "_HEADER_BY_VERSION") "values") [] []))] []));
    (* utils.py:76-76 *) PAssign "MAX_SAMPLES_PER_FILE" (EInt 86400);
    (* utils.py:79-79 *) PAssign "MAGIC" (EInt 4276993775);
    (* utils.py:82-129 *) PDef (mkDef "generate_statistics" [] [ENone; (EBool true); (EName "MAX_SAMPLES_PER_FILE")] [(EAttr (EName "io") "BytesIO"); (EName "Header"); (EName "bool"); (EName "int"); (ESub (EName "tuple") (ETuple [(EName "Record"); (EName "SStat"); (ESub (EName "list") (EName "TStat")); (ESub (EName "list") (EName "CGChainer"))]))]);
    (* utils.py:132-163 *) PDef (mkDef "get_header" [] [(EBool true)] [(EAttr (EName "io") "BytesIO"); (EName "bool"); (EName "Header")]);
    (* utils.py:166-184 *) PDef (mkDef "get_record" [] [] [(EAttr (EName "io") "BytesIO"); (EName "Header"); (EName "Record")]);
    (* utils.py:187-210 *) PDef (mkDef "get_sstat" [] [] [(EAttr (EName "io") "BytesIO"); (EName "Header"); (EName "Record"); (EName "SStat")]);
    (* utils.py:213-245 *) PDef (mkDef "get_tstat" [] [] [(EAttr (EName "io") "BytesIO"); (EName "Header"); (EName "Record"); (ESub (EName "list") (EName "TStat"))]);
    (* utils.py:248-293 *) PDef (mkDef "get_cstat" [] [] [(EAttr (EName "io") "BytesIO"); (EName "Header"); (EName "Record"); (ESub (EName "list") (EName "CGChainer"))]);
    (* utils.py:296-329 *) PDef (mkDef "struct_to_dict" [] [] [(EAttr (EName "ctypes") "Structure"); (EName "dict")])].

(** atoparser/parsers/atop_1_26.py *)
Definition pk_parsers_atop_1_26 : list ptop :=
  [
    (* atop_1_26.py:3-3 *) PFrom "atoparser" "utils" "utils";
    (* atop_1_26.py:4-4 *) PFrom "atoparser.structs" "atop_1_26" "atop_1_26";
    (* atop_1_26.py:11-37 *) PDef (mkDef "parse_cpu" [] [] [(EAttr (EName "utils") "Header"); (EAttr (EName "utils") "Record"); (EAttr (EName "utils") "SStat"); (ESub (EName "list") (EAttr (EName "utils") "TStat")); (EName "dict")]);
    (* atop_1_26.py:40-57 *) PDef (mkDef "parse_CPL" [] [] [(EAttr (EName "utils") "Header"); (EAttr (EName "utils") "Record"); (EAttr (EName "utils") "SStat"); (ESub (EName "list") (EAttr (EName "utils") "TStat")); (EName "dict")]);
    (* atop_1_26.py:60-82 *) PDef (mkDef "parse_CPU" [] [] [(EAttr (EName "utils") "Header"); (EAttr (EName "utils") "Record"); (EAttr (EName "utils") "SStat"); (ESub (EName "list") (EAttr (EName "utils") "TStat")); (EName "dict")]);
    (* atop_1_26.py:85-106 *) PDef (mkDef "parse_DSK" [] [] [(EAttr (EName "utils") "Header"); (EAttr (EName "utils") "Record"); (EAttr (EName "utils") "SStat"); (ESub (EName "list") (EAttr (EName "utils") "TStat")); (EName "dict")]);
    (* atop_1_26.py:109-130 *) PDef (mkDef "parse_LVM" [] [] [(EAttr (EName "utils") "Header"); (EAttr (EName "utils") "Record"); (EAttr (EName "utils") "SStat"); (ESub (EName "list") (EAttr (EName "utils") "TStat")); (EName "dict")]);
    (* atop_1_26.py:133-154 *) PDef (mkDef "parse_MDD" [] [] [(EAttr (EName "utils") "Header"); (EAttr (EName "utils") "Record"); (EAttr (EName "utils") "SStat"); (ESub (EName "list") (EAttr (EName "utils") "TStat")); (EName "dict")]);
    (* atop_1_26.py:157-175 *) PDef (mkDef "parse_MEM" [] [] [(EAttr (EName "utils") "Header"); (EAttr (EName "utils") "Record"); (EAttr (EName "utils") "SStat"); (ESub (EName "list") (EAttr (EName "utils") "TStat")); (EName "dict")]);
    (* atop_1_26.py:178-200 *) PDef (mkDef "parse_NETL" [] [] [(EAttr (EName "utils") "Header"); (EAttr (EName "utils") "Record"); (EAttr (EName "utils") "SStat"); (ESub (EName "list") (EAttr (EName "utils") "TStat")); (EName "dict")]);
    (* atop_1_26.py:203-223 *) PDef (mkDef "parse_NETU" [] [] [(EAttr (EName "utils") "Header"); (EAttr (EName "utils") "Record"); (EAttr (EName "utils") "SStat"); (ESub (EName "list") (EAttr (EName "utils") "TStat")); (EName "dict")]);
    (* atop_1_26.py:226-242 *) PDef (mkDef "parse_PAG" [] [] [(EAttr (EName "utils") "Header"); (EAttr (EName "utils") "Record"); (EAttr (EName "utils") "SStat"); (ESub (EName "list") (EAttr (EName "utils") "TStat")); (EName "dict")]);
    (* atop_1_26.py:245-269 *) PDef (mkDef "parse_PRC" [] [] [(EAttr (EName "utils") "Header"); (EAttr (EName "utils") "Record"); (EAttr (EName "utils") "SStat"); (ESub (EName "list") (EAttr (EName "utils") "TStat")); (EName "dict")]);
    (* atop_1_26.py:272-294 *) PDef (mkDef "parse_PRD" [] [] [(EAttr (EName "utils") "Header"); (EAttr (EName "utils") "Record"); (EAttr (EName "utils") "SStat"); (ESub (EName "list") (EAttr (EName "utils") "TStat")); (EName "dict")]);
    (* atop_1_26.py:297-330 *) PDef (mkDef "parse_PRG" [] [] [(EAttr (EName "utils") "Header"); (EAttr (EName "utils") "Record"); (EAttr (EName "utils") "SStat"); (ESub (EName "list") (EAttr (EName "utils") "TStat")); (EName "dict")]);
    (* atop_1_26.py:333-356 *) PDef (mkDef "parse_PRM" [] [] [(EAttr (EName "utils") "Header"); (EAttr (EName "utils") "Record"); (EAttr (EName "utils") "SStat"); (ESub (EName "list") (EAttr (EName "utils") "TStat")); (EName "dict")]);
    (* atop_1_26.py:359-385 *) PDef (mkDef "parse_PRN" [] [] [(EAttr (EName "utils") "Header"); (EAttr (EName "utils") "Record"); (EAttr (EName "utils") "SStat"); (ESub (EName "list") (EAttr (EName "utils") "TStat")); (EName "dict")]);
    (* atop_1_26.py:388-404 *) PDef (mkDef "parse_SWP" [] [] [(EAttr (EName "utils") "Header"); (EAttr (EName "utils") "Record"); (EAttr (EName "utils") "SStat"); (ESub (EName "list") (EAttr (EName "utils") "TStat")); (EName "dict")])].

(** atoparser/reader.py *)
Definition pk_reader : list ptop :=
  [
    (* reader.py:5-5 *) PImport "argparse";
    (* reader.py:6-6 *) PImport "gzip";
    (* reader.py:7-7 *) PImport "json";
    (* reader.py:9-9 *) PImport "atoparser";
    (* reader.py:10-10 *) PFrom "atoparser.parsers" "atop_1_26" "atop_1_26";
    (* reader.py:12-12 *) PAssign "PARSEABLES" (EList [(EStr "cpu"); (EStr "CPL"); (EStr "CPU"); (EStr "DSK"); (EStr "LVM"); (EStr "MDD"); (EStr "MEM"); (EStr "NETL"); (EStr "NETU"); (EStr "PAG"); (EStr "PRC"); (EStr "PRG"); (EStr "PRM"); (EStr "PRN"); (EStr "SWP")]);
    (* reader.py:13-15 *) PAssign "PARSEABLE_MAP" (EDict [((EStr "1.26"), (EDictComp (EName "parseable") (ECall (EName "getattr") [(EName "atop_1_26"); (EFStr [(EStr "parse_"); (EName "parseable")])] []) "parseable" (EName "PARSEABLES")))]);
    (* reader.py:18-59 *) PDef (mkDef "parse_args" [] [] [(EAttr (EName "argparse") "Namespace")]);
    (* reader.py:62-112 *) PDef (mkDef "parse_file" [] [ENone; (EBool true); (EBool false); (EBool false)] [(EName "str"); (EBin OpBitOr (ESub (EName "list") (EName "str")) ENone); (EName "bool"); (EName "bool"); (EName "bool"); ENone]);
    (* reader.py:115-126 *) PDef (mkDef "main" [] [] [ENone]);
    (* reader.py:129-130 *) PIf (ECmp OpEq (EName "__name__") (EStr "__main__")) [
      SExpr (ECall (EName "main") [] [])]].

(** atoparser/structs/shared.py *)
Definition pk_structs_shared : list ptop :=
  [
    (* shared.py:10-10 *) PImport "ctypes";
    (* shared.py:17-17 *) PAssign "time_t" (EAttr (EName "ctypes") "c_long");
    (* shared.py:20-20 *) PAssign "count_t" (EAttr (EName "ctypes") "c_longlong");
    (* shared.py:23-23 *) PAssign "off_t" (EAttr (EName "ctypes") "c_long");
    (* shared.py:24-24 *) PAssign "pid_t" (EAttr (EName "ctypes") "c_int");
    (* shared.py:27-89 *) PClass "HeaderMixin" [] [
      PIAnn (EName "str");
      PIAnn (EAttr (EName "ctypes") "Structure");
      PIAnn (EAttr (EName "ctypes") "Structure");
      PIAnn (EAttr (EName "ctypes") "Structure");
      PIAnn (EAttr (EName "ctypes") "Structure");
      PIAnn (EAttr (EName "ctypes") "Structure");
      PIDef (mkDef "check_compatibility" [] [] [ENone]);
      PIDef (mkDef "major_version" [(EName "property")] [] [(EName "int")]);
      PIDef (mkDef "minor_version" [(EName "property")] [] [(EName "int")]);
      PIDef (mkDef "semantic_version" [(EName "property")] [] [(EName "str")])];
    (* shared.py:92-107 *) PClass "UTSName" [(EAttr (EName "ctypes") "Structure")] [
      PIAssign "_fields_" (EList [(ETuple [(EStr "sysname"); (EBin OpMul (EAttr (EName "ctypes") "c_char") (EInt 65))]); (ETuple [(EStr "nodename"); (EBin OpMul (EAttr (EName "ctypes") "c_char") (EInt 65))]); (ETuple [(EStr "release"); (EBin OpMul (EAttr (EName "ctypes") "c_char") (EInt 65))]); (ETuple [(EStr "version"); (EBin OpMul (EAttr (EName "ctypes") "c_char") (EInt 65))]); (ETuple [(EStr "machine"); (EBin OpMul (EAttr (EName "ctypes") "c_char") (EInt 65))]); (ETuple [(EStr "domain"); (EBin OpMul (EAttr (EName "ctypes") "c_char") (EInt 65))])])]].

(** atoparser/structs/atop_1_26.py *)
Definition pk_structs_atop_1_26 : list ptop :=
  [
    (* atop_1_26.py:15-15 *) PImport "ctypes";
    (* atop_1_26.py:17-17 *) PFrom "atoparser.structs.shared" "HeaderMixin" "HeaderMixin";
    (* atop_1_26.py:18-18 *) PFrom "atoparser.structs.shared" "UTSName" "UTSName";
    (* atop_1_26.py:19-19 *) PFrom "atoparser.structs.shared" "count_t" "count_t";
    (* atop_1_26.py:20-20 *) PFrom "atoparser.structs.shared" "time_t" "time_t";
    (* atop_1_26.py:27-27 *) PAssign "ACCTACTIVE" (EInt 1);
    (* atop_1_26.py:28-28 *) PAssign "PATCHSTAT" (EInt 2);
    (* atop_1_26.py:29-29 *) PAssign "IOSTAT" (EInt 4);
    (* atop_1_26.py:30-30 *) PAssign "PATCHACCT" (EInt 8);
    (* atop_1_26.py:33-33 *) PAssign "PNAMLEN" (EInt 15);
    (* atop_1_26.py:34-34 *) PAssign "CMDLEN" (EInt 150);
    (* atop_1_26.py:37-37 *) PAssign "MAXCPU" (EInt 64);
    (* atop_1_26.py:38-38 *) PAssign "MAXDSK" (EInt 256);
    (* atop_1_26.py:39-39 *) PAssign "MAXLVM" (EInt 256);
    (* atop_1_26.py:40-40 *) PAssign "MAXMDD" (EInt 128);
    (* atop_1_26.py:41-41 *) PAssign "MAXDKNAM" (EInt 32);
    (* atop_1_26.py:42-42 *) PAssign "MAXINTF" (EInt 32);
    (* atop_1_26.py:45-67 *) PClass "Record" [(EAttr (EName "ctypes") "Structure")] [
      PIAssign "_fields_" (EList [(ETuple [(EStr "curtime"); (EName "time_t")]); (ETuple [(EStr "flags"); (EAttr (EName "ctypes") "c_ushort")]); (ETuple [(EStr "sfuture"); (EBin OpMul (EAttr (EName "ctypes") "c_ushort") (EInt 3))]); (ETuple [(EStr "scomplen"); (EAttr (EName "ctypes") "c_uint")]); (ETuple [(EStr "pcomplen"); (EAttr (EName "ctypes") "c_uint")]); (ETuple [(EStr "interval"); (EAttr (EName "ctypes") "c_uint")]); (ETuple [(EStr "nlist"); (EAttr (EName "ctypes") "c_uint")]); (ETuple [(EStr "npresent"); (EAttr (EName "ctypes") "c_uint")]); (ETuple [(EStr "nexit"); (EAttr (EName "ctypes") "c_uint")]); (ETuple [(EStr "ntrun"); (EAttr (EName "ctypes") "c_uint")]); (ETuple [(EStr "ntslpi"); (EAttr (EName "ctypes") "c_uint")]); (ETuple [(EStr "ntslpu"); (EAttr (EName "ctypes") "c_uint")]); (ETuple [(EStr "nzombie"); (EAttr (EName "ctypes") "c_uint")]); (ETuple [(EStr "ifuture"); (EBin OpMul (EAttr (EName "ctypes") "c_uint") (EInt 6))])])];
    (* atop_1_26.py:70-94 *) PClass "MemStat" [(EAttr (EName "ctypes") "Structure")] [
      PIAssign "_fields_" (EList [(ETuple [(EStr "physmem"); (EName "count_t")]); (ETuple [(EStr "freemem"); (EName "count_t")]); (ETuple [(EStr "buffermem"); (EName "count_t")]); (ETuple [(EStr "slabmem"); (EName "count_t")]); (ETuple [(EStr "cachemem"); (EName "count_t")]); (ETuple [(EStr "cachedrt"); (EName "count_t")]); (ETuple [(EStr "totswap"); (EName "count_t")]); (ETuple [(EStr "freeswap"); (EName "count_t")]); (ETuple [(EStr "pgscans"); (EName "count_t")]); (ETuple [(EStr "allocstall"); (EName "count_t")]); (ETuple [(EStr "swouts"); (EName "count_t")]); (ETuple [(EStr "swins"); (EName "count_t")]); (ETuple [(EStr "commitlim"); (EName "count_t")]); (ETuple [(EStr "committed"); (EName "count_t")]); (ETuple [(EStr "cfuture"); (EBin OpMul (EName "count_t") (EInt 4))])])];
    (* atop_1_26.py:97-109 *) PClass "FreqCnt" [(EAttr (EName "ctypes") "Structure")] [
      PIAssign "_fields_" (EList [(ETuple [(EStr "maxfreq"); (EName "count_t")]); (ETuple [(EStr "cnt"); (EName "count_t")]); (ETuple [(EStr "ticks"); (EName "count_t")])])];
    (* atop_1_26.py:112-133 *) PClass "PerCPU" [(EAttr (EName "ctypes") "Structure")] [
      PIAssign "_fields_" (EList [(ETuple [(EStr "cpunr"); (EAttr (EName "ctypes") "c_int")]); (ETuple [(EStr "stime"); (EName "count_t")]); (ETuple [(EStr "utime"); (EName "count_t")]); (ETuple [(EStr "ntime"); (EName "count_t")]); (ETuple [(EStr "itime"); (EName "count_t")]); (ETuple [(EStr "wtime"); (EName "count_t")]); (ETuple [(EStr "Itime"); (EName "count_t")]); (ETuple [(EStr "Stime"); (EName "count_t")]); (ETuple [(EStr "steal"); (EName "count_t")]); (ETuple [(EStr "guest"); (EName "count_t")]); (ETuple [(EStr "freqcnt"); (EName "FreqCnt")]); (ETuple [(EStr "cfuture"); (EBin OpMul (EName "count_t") (EInt 1))])])];
    (* atop_1_26.py:136-156 *) PClass "CPUStat" [(EAttr (EName "ctypes") "Structure")] [
      PIAssign "_fields_" (EList [(ETuple [(EStr "nrcpu"); (EName "count_t")]); (ETuple [(EStr "devint"); (EName "count_t")]); (ETuple [(EStr "csw"); (EName "count_t")]); (ETuple [(EStr "nprocs"); (EName "count_t")]); (ETuple [(EStr "lavg1"); (EAttr (EName "ctypes") "c_float")]); (ETuple [(EStr "lavg5"); (EAttr (EName "ctypes") "c_float")]); (ETuple [(EStr "lavg15"); (EAttr (EName "ctypes") "c_float")]); (ETuple [(EStr "cfuture"); (EBin OpMul (EName "count_t") (EInt 4))]); (ETuple [(EStr "all"); (EName "PerCPU")]); (ETuple [(EStr "cpu"); (EBin OpMul (EName "PerCPU") (EName "MAXCPU"))])]);
      PIAssign "fields_limiters" (EDict [((EStr "cpu"), (EStr "nrcpu"))])];
    (* atop_1_26.py:159-187 *) PClass "IPv4Stats" [(EAttr (EName "ctypes") "Structure")] [
      PIAssign "_fields_" (EList [(ETuple [(EStr "Forwarding"); (EName "count_t")]); (ETuple [(EStr "DefaultTTL"); (EName "count_t")]); (ETuple [(EStr "InReceives"); (EName "count_t")]); (ETuple [(EStr "InHdrErrors"); (EName "count_t")]); (ETuple [(EStr "InAddrErrors"); (EName "count_t")]); (ETuple [(EStr "ForwDatagrams"); (EName "count_t")]); (ETuple [(EStr "InUnknownProtos"); (EName "count_t")]); (ETuple [(EStr "InDiscards"); (EName "count_t")]); (ETuple [(EStr "InDelivers"); (EName "count_t")]); (ETuple [(EStr "OutRequests"); (EName "count_t")]); (ETuple [(EStr "OutDiscards"); (EName "count_t")]); (ETuple [(EStr "OutNoRoutes"); (EName "count_t")]); (ETuple [(EStr "ReasmTimeout"); (EName "count_t")]); (ETuple [(EStr "ReasmReqds"); (EName "count_t")]); (ETuple [(EStr "ReasmOKs"); (EName "count_t")]); (ETuple [(EStr "ReasmFails"); (EName "count_t")]); (ETuple [(EStr "FragOKs"); (EName "count_t")]); (ETuple [(EStr "FragFails"); (EName "count_t")]); (ETuple [(EStr "FragCreates"); (EName "count_t")])])];
    (* atop_1_26.py:190-225 *) PClass "ICMPv4Stats" [(EAttr (EName "ctypes") "Structure")] [
      PIAssign "_fields_" (EList [(ETuple [(EStr "InMsgs"); (EName "count_t")]); (ETuple [(EStr "InErrors"); (EName "count_t")]); (ETuple [(EStr "InDestUnreachs"); (EName "count_t")]); (ETuple [(EStr "InTimeExcds"); (EName "count_t")]); (ETuple [(EStr "InParmProbs"); (EName "count_t")]); (ETuple [(EStr "InSrcQuenchs"); (EName "count_t")]); (ETuple [(EStr "InRedirects"); (EName "count_t")]); (ETuple [(EStr "InEchos"); (EName "count_t")]); (ETuple [(EStr "InEchoReps"); (EName "count_t")]); (ETuple [(EStr "InTimestamps"); (EName "count_t")]); (ETuple [(EStr "InTimestampReps"); (EName "count_t")]); (ETuple [(EStr "InAddrMasks"); (EName "count_t")]); (ETuple [(EStr "InAddrMaskReps"); (EName "count_t")]); (ETuple [(EStr "OutMsgs"); (EName "count_t")]); (ETuple [(EStr "OutErrors"); (EName "count_t")]); (ETuple [(EStr "OutDestUnreachs"); (EName "count_t")]); (ETuple [(EStr "OutTimeExcds"); (EName "count_t")]); (ETuple [(EStr "OutParmProbs"); (EName "count_t")]); (ETuple [(EStr "OutSrcQuenchs"); (EName "count_t")]); (ETuple [(EStr "OutRedirects"); (EName "count_t")]); (ETuple [(EStr "OutEchos"); (EName "count_t")]); (ETuple [(EStr "OutEchoReps"); (EName "count_t")]); (ETuple [(EStr "OutTimestamps"); (EName "count_t")]); (ETuple [(EStr "OutTimestampReps"); (EName "count_t")]); (ETuple [(EStr "OutAddrMasks"); (EName "count_t")]); (ETuple [(EStr "OutAddrMaskReps"); (EName "count_t")])])];
    (* atop_1_26.py:228-241 *) PClass "UDPv4Stats" [(EAttr (EName "ctypes") "Structure")] [
      PIAssign "_fields_" (EList [(ETuple [(EStr "InDatagrams"); (EName "count_t")]); (ETuple [(EStr "NoPorts"); (EName "count_t")]); (ETuple [(EStr "InErrors"); (EName "count_t")]); (ETuple [(EStr "OutDatagrams"); (EName "count_t")])])];
    (* atop_1_26.py:244-267 *) PClass "TCPStats" [(EAttr (EName "ctypes") "Structure")] [
      PIAssign "_fields_" (EList [(ETuple [(EStr "RtoAlgorithm"); (EName "count_t")]); (ETuple [(EStr "RtoMin"); (EName "count_t")]); (ETuple [(EStr "RtoMax"); (EName "count_t")]); (ETuple [(EStr "MaxConn"); (EName "count_t")]); (ETuple [(EStr "ActiveOpens"); (EName "count_t")]); (ETuple [(EStr "PassiveOpens"); (EName "count_t")]); (ETuple [(EStr "AttemptFails"); (EName "count_t")]); (ETuple [(EStr "EstabResets"); (EName "count_t")]); (ETuple [(EStr "CurrEstab"); (EName "count_t")]); (ETuple [(EStr "InSegs"); (EName "count_t")]); (ETuple [(EStr "OutSegs"); (EName "count_t")]); (ETuple [(EStr "RetransSegs"); (EName "count_t")]); (ETuple [(EStr "InErrs"); (EName "count_t")]); (ETuple [(EStr "OutRsts"); (EName "count_t")])])];
    (* atop_1_26.py:270-301 *) PClass "IPv6Stats" [(EAttr (EName "ctypes") "Structure")] [
      PIAssign "_fields_" (EList [(ETuple [(EStr "Ip6InReceives"); (EName "count_t")]); (ETuple [(EStr "Ip6InHdrErrors"); (EName "count_t")]); (ETuple [(EStr "Ip6InTooBigErrors"); (EName "count_t")]); (ETuple [(EStr "Ip6InNoRoutes"); (EName "count_t")]); (ETuple [(EStr "Ip6InAddrErrors"); (EName "count_t")]); (ETuple [(EStr "Ip6InUnknownProtos"); (EName "count_t")]); (ETuple [(EStr "Ip6InTruncatedPkts"); (EName "count_t")]); (ETuple [(EStr "Ip6InDiscards"); (EName "count_t")]); (ETuple [(EStr "Ip6InDelivers"); (EName "count_t")]); (ETuple [(EStr "Ip6OutForwDatagrams"); (EName "count_t")]); (ETuple [(EStr "Ip6OutRequests"); (EName "count_t")]); (ETuple [(EStr "Ip6OutDiscards"); (EName "count_t")]); (ETuple [(EStr "Ip6OutNoRoutes"); (EName "count_t")]); (ETuple [(EStr "Ip6ReasmTimeout"); (EName "count_t")]); (ETuple [(EStr "Ip6ReasmReqds"); (EName "count_t")]); (ETuple [(EStr "Ip6ReasmOKs"); (EName "count_t")]); (ETuple [(EStr "Ip6ReasmFails"); (EName "count_t")]); (ETuple [(EStr "Ip6FragOKs"); (EName "count_t")]); (ETuple [(EStr "Ip6FragFails"); (EName "count_t")]); (ETuple [(EStr "Ip6FragCreates"); (EName "count_t")]); (ETuple [(EStr "Ip6InMcastPkts"); (EName "count_t")]); (ETuple [(EStr "Ip6OutMcastPkts"); (EName "count_t")])])];
    (* atop_1_26.py:304-341 *) PClass "ICMPv6Stats" [(EAttr (EName "ctypes") "Structure")] [
      PIAssign "_fields_" (EList [(ETuple [(EStr "Icmp6InMsgs"); (EName "count_t")]); (ETuple [(EStr "Icmp6InErrors"); (EName "count_t")]); (ETuple [(EStr "Icmp6InDestUnreachs"); (EName "count_t")]); (ETuple [(EStr "Icmp6InPktTooBigs"); (EName "count_t")]); (ETuple [(EStr "Icmp6InTimeExcds"); (EName "count_t")]); (ETuple [(EStr "Icmp6InParmProblems"); (EName "count_t")]); (ETuple [(EStr "Icmp6InEchos"); (EName "count_t")]); (ETuple [(EStr "Icmp6InEchoReplies"); (EName "count_t")]); (ETuple [(EStr "Icmp6InGroupMembQueries"); (EName "count_t")]); (ETuple [(EStr "Icmp6InGroupMembResponses"); (EName "count_t")]); (ETuple [(EStr "Icmp6InGroupMembReductions"); (EName "count_t")]); (ETuple [(EStr "Icmp6InRouterSolicits"); (EName "count_t")]); (ETuple [(EStr "Icmp6InRouterAdvertisements"); (EName "count_t")]); (ETuple [(EStr "Icmp6InNeighborSolicits"); (EName "count_t")]); (ETuple [(EStr "Icmp6InNeighborAdvertisements"); (EName "count_t")]); (ETuple [(EStr "Icmp6InRedirects"); (EName "count_t")]); (ETuple [(EStr "Icmp6OutMsgs"); (EName "count_t")]); (ETuple [(EStr "Icmp6OutDestUnreachs"); (EName "count_t")]); (ETuple [(EStr "Icmp6OutPktTooBigs"); (EName "count_t")]); (ETuple [(EStr "Icmp6OutTimeExcds"); (EName "count_t")]); (ETuple [(EStr "Icmp6OutParmProblems"); (EName "count_t")]); (ETuple [(EStr "Icmp6OutEchoReplies"); (EName "count_t")]); (ETuple [(EStr "Icmp6OutRouterSolicits"); (EName "count_t")]); (ETuple [(EStr "Icmp6OutNeighborSolicits"); (EName "count_t")]); (ETuple [(EStr "Icmp6OutNeighborAdvertisements"); (EName "count_t")]); (ETuple [(EStr "Icmp6OutRedirects"); (EName "count_t")]); (ETuple [(EStr "Icmp6OutGroupMembResponses"); (EName "count_t")]); (ETuple [(EStr "Icmp6OutGroupMembReductions"); (EName "count_t")])])];
    (* atop_1_26.py:344-357 *) PClass "UDPv6Stats" [(EAttr (EName "ctypes") "Structure")] [
      PIAssign "_fields_" (EList [(ETuple [(EStr "Udp6InDatagrams"); (EName "count_t")]); (ETuple [(EStr "Udp6NoPorts"); (EName "count_t")]); (ETuple [(EStr "Udp6InErrors"); (EName "count_t")]); (ETuple [(EStr "Udp6OutDatagrams"); (EName "count_t")])])];
    (* atop_1_26.py:360-376 *) PClass "NETStat" [(EAttr (EName "ctypes") "Structure")] [
      PIAssign "_fields_" (EList [(ETuple [(EStr "ipv4"); (EName "IPv4Stats")]); (ETuple [(EStr "icmpv4"); (EName "ICMPv4Stats")]); (ETuple [(EStr "udpv4"); (EName "UDPv4Stats")]); (ETuple [(EStr "ipv6"); (EName "IPv6Stats")]); (ETuple [(EStr "icmpv6"); (EName "ICMPv6Stats")]); (ETuple [(EStr "udpv6"); (EName "UDPv6Stats")]); (ETuple [(EStr "tcp"); (EName "TCPStats")])])];
    (* atop_1_26.py:379-396 *) PClass "PerDSK" [(EAttr (EName "ctypes") "Structure")] [
      PIAssign "_fields_" (EList [(ETuple [(EStr "name"); (EBin OpMul (EAttr (EName "ctypes") "c_char") (EName "MAXDKNAM"))]); (ETuple [(EStr "nread"); (EName "count_t")]); (ETuple [(EStr "nrsect"); (EName "count_t")]); (ETuple [(EStr "nwrite"); (EName "count_t")]); (ETuple [(EStr "nwsect"); (EName "count_t")]); (ETuple [(EStr "io_ms"); (EName "count_t")]); (ETuple [(EStr "avque"); (EName "count_t")]); (ETuple [(EStr "cfuture"); (EBin OpMul (EName "count_t") (EInt 4))])])];
    (* atop_1_26.py:399-419 *) PClass "DSKStat" [(EAttr (EName "ctypes") "Structure")] [
      PIAssign "_fields_" (EList [(ETuple [(EStr "ndsk"); (EAttr (EName "ctypes") "c_int")]); (ETuple [(EStr "nmdd"); (EAttr (EName "ctypes") "c_int")]); (ETuple [(EStr "nlvm"); (EAttr (EName "ctypes") "c_int")]); (ETuple [(EStr "dsk"); (EBin OpMul (EName "PerDSK") (EName "MAXDSK"))]); (ETuple [(EStr "mdd"); (EBin OpMul (EName "PerDSK") (EName "MAXMDD"))]); (ETuple [(EStr "lvm"); (EBin OpMul (EName "PerDSK") (EName "MAXLVM"))])]);
      PIAssign "fields_limiters" (EDict [((EStr "dsk"), (EStr "ndsk")); ((EStr "mdd"), (EStr "nmdd")); ((EStr "lvm"), (EStr "nlvm"))])];
    (* atop_1_26.py:422-453 *) PClass "PerIntf" [(EAttr (EName "ctypes") "Structure")] [
      PIAssign "_fields_" (EList [(ETuple [(EStr "name"); (EBin OpMul (EAttr (EName "ctypes") "c_char") (EInt 16))]); (ETuple [(EStr "rbyte"); (EName "count_t")]); (ETuple [(EStr "rpack"); (EName "count_t")]); (ETuple [(EStr "rerrs"); (EName "count_t")]); (ETuple [(EStr "rdrop"); (EName "count_t")]); (ETuple [(EStr "rfifo"); (EName "count_t")]); (ETuple [(EStr "rframe"); (EName "count_t")]); (ETuple [(EStr "rcompr"); (EName "count_t")]); (ETuple [(EStr "rmultic"); (EName "count_t")]); (ETuple [(EStr "rfuture"); (EBin OpMul (EName "count_t") (EInt 4))]); (ETuple [(EStr "sbyte"); (EName "count_t")]); (ETuple [(EStr "spack"); (EName "count_t")]); (ETuple [(EStr "serrs"); (EName "count_t")]); (ETuple [(EStr "sdrop"); (EName "count_t")]); (ETuple [(EStr "sfifo"); (EName "count_t")]); (ETuple [(EStr "scollis"); (EName "count_t")]); (ETuple [(EStr "scarrier"); (EName "count_t")]); (ETuple [(EStr "scompr"); (EName "count_t")]); (ETuple [(EStr "sfuture"); (EBin OpMul (EName "count_t") (EInt 4))]); (ETuple [(EStr "speed"); (EAttr (EName "ctypes") "c_long")]); (ETuple [(EStr "duplex"); (EAttr (EName "ctypes") "c_char")]); (ETuple [(EStr "cfuture"); (EBin OpMul (EName "count_t") (EInt 4))])])];
    (* atop_1_26.py:456-470 *) PClass "IntfStat" [(EAttr (EName "ctypes") "Structure")] [
      PIAssign "_fields_" (EList [(ETuple [(EStr "nrintf"); (EAttr (EName "ctypes") "c_int")]); (ETuple [(EStr "intf"); (EBin OpMul (EName "PerIntf") (EName "MAXINTF"))])]);
      PIAssign "fields_limiters" (EDict [((EStr "intf"), (EStr "nrintf"))])];
    (* atop_1_26.py:473-487 *) PClass "WWWStat" [(EAttr (EName "ctypes") "Structure")] [
      PIAssign "_fields_" (EList [(ETuple [(EStr "accesses"); (EName "count_t")]); (ETuple [(EStr "totkbytes"); (EName "count_t")]); (ETuple [(EStr "uptime"); (EName "count_t")]); (ETuple [(EStr "bworkers"); (EAttr (EName "ctypes") "c_int")]); (ETuple [(EStr "iworkers"); (EAttr (EName "ctypes") "c_int")])])];
    (* atop_1_26.py:490-504 *) PClass "SStat" [(EAttr (EName "ctypes") "Structure")] [
      PIAssign "_fields_" (EList [(ETuple [(EStr "cpu"); (EName "CPUStat")]); (ETuple [(EStr "mem"); (EName "MemStat")]); (ETuple [(EStr "net"); (EName "NETStat")]); (ETuple [(EStr "intf"); (EName "IntfStat")]); (ETuple [(EStr "dsk"); (EName "DSKStat")]); (ETuple [(EStr "www"); (EName "WWWStat")])])];
    (* atop_1_26.py:507-537 *) PClass "GEN" [(EAttr (EName "ctypes") "Structure")] [
      PIAssign "_fields_" (EList [(ETuple [(EStr "pid"); (EAttr (EName "ctypes") "c_int")]); (ETuple [(EStr "ppid"); (EAttr (EName "ctypes") "c_int")]); (ETuple [(EStr "ruid"); (EAttr (EName "ctypes") "c_int")]); (ETuple [(EStr "euid"); (EAttr (EName "ctypes") "c_int")]); (ETuple [(EStr "suid"); (EAttr (EName "ctypes") "c_int")]); (ETuple [(EStr "fsuid"); (EAttr (EName "ctypes") "c_int")]); (ETuple [(EStr "rgid"); (EAttr (EName "ctypes") "c_int")]); (ETuple [(EStr "egid"); (EAttr (EName "ctypes") "c_int")]); (ETuple [(EStr "sgid"); (EAttr (EName "ctypes") "c_int")]); (ETuple [(EStr "fsgid"); (EAttr (EName "ctypes") "c_int")]); (ETuple [(EStr "nthr"); (EAttr (EName "ctypes") "c_int")]); (ETuple [(EStr "name"); (EBin OpMul (EAttr (EName "ctypes") "c_char") (EBin OpAdd (EName "PNAMLEN") (EInt 1)))]); (ETuple [(EStr "state"); (EAttr (EName "ctypes") "c_char")]); (ETuple [(EStr "excode"); (EAttr (EName "ctypes") "c_int")]); (ETuple [(EStr "btime"); (EName "time_t")]); (ETuple [(EStr "elaps"); (EName "time_t")]); (ETuple [(EStr "cmdline"); (EBin OpMul (EAttr (EName "ctypes") "c_char") (EBin OpAdd (EName "CMDLEN") (EInt 1)))]); (ETuple [(EStr "nthrslpi"); (EAttr (EName "ctypes") "c_int")]); (ETuple [(EStr "nthrslpu"); (EAttr (EName "ctypes") "c_int")]); (ETuple [(EStr "nthrrun"); (EAttr (EName "ctypes") "c_int")]); (ETuple [(EStr "ifuture"); (EBin OpMul (EAttr (EName "ctypes") "c_int") (EInt 1))])])];
    (* atop_1_26.py:540-559 *) PClass "CPU" [(EAttr (EName "ctypes") "Structure")] [
      PIAssign "_fields_" (EList [(ETuple [(EStr "utime"); (EName "count_t")]); (ETuple [(EStr "stime"); (EName "count_t")]); (ETuple [(EStr "nice"); (EAttr (EName "ctypes") "c_int")]); (ETuple [(EStr "prio"); (EAttr (EName "ctypes") "c_int")]); (ETuple [(EStr "rtprio"); (EAttr (EName "ctypes") "c_int")]); (ETuple [(EStr "policy"); (EAttr (EName "ctypes") "c_int")]); (ETuple [(EStr "curcpu"); (EAttr (EName "ctypes") "c_int")]); (ETuple [(EStr "sleepavg"); (EAttr (EName "ctypes") "c_int")]); (ETuple [(EStr "ifuture"); (EBin OpMul (EAttr (EName "ctypes") "c_int") (EInt 4))]); (ETuple [(EStr "cfuture"); (EBin OpMul (EName "count_t") (EInt 4))])])];
    (* atop_1_26.py:562-577 *) PClass "DSK" [(EAttr (EName "ctypes") "Structure")] [
      PIAssign "_fields_" (EList [(ETuple [(EStr "rio"); (EName "count_t")]); (ETuple [(EStr "rsz"); (EName "count_t")]); (ETuple [(EStr "wio"); (EName "count_t")]); (ETuple [(EStr "wsz"); (EName "count_t")]); (ETuple [(EStr "cwsz"); (EName "count_t")]); (ETuple [(EStr "cfuture"); (EBin OpMul (EName "count_t") (EInt 4))])])];
    (* atop_1_26.py:580-597 *) PClass "MEM" [(EAttr (EName "ctypes") "Structure")] [
      PIAssign "_fields_" (EList [(ETuple [(EStr "minflt"); (EName "count_t")]); (ETuple [(EStr "majflt"); (EName "count_t")]); (ETuple [(EStr "shtext"); (EName "count_t")]); (ETuple [(EStr "vmem"); (EName "count_t")]); (ETuple [(EStr "rmem"); (EName "count_t")]); (ETuple [(EStr "vgrow"); (EName "count_t")]); (ETuple [(EStr "rgrow"); (EName "count_t")]); (ETuple [(EStr "cfuture"); (EBin OpMul (EName "count_t") (EInt 4))])])];
    (* atop_1_26.py:600-620 *) PClass "NET" [(EAttr (EName "ctypes") "Structure")] [
      PIAssign "_fields_" (EList [(ETuple [(EStr "tcpsnd"); (EName "count_t")]); (ETuple [(EStr "tcpssz"); (EName "count_t")]); (ETuple [(EStr "tcprcv"); (EName "count_t")]); (ETuple [(EStr "tcprsz"); (EName "count_t")]); (ETuple [(EStr "udpsnd"); (EName "count_t")]); (ETuple [(EStr "udpssz"); (EName "count_t")]); (ETuple [(EStr "udprcv"); (EName "count_t")]); (ETuple [(EStr "udprsz"); (EName "count_t")]); (ETuple [(EStr "rawsnd"); (EName "count_t")]); (ETuple [(EStr "rawrcv"); (EName "count_t")]); (ETuple [(EStr "cfuture"); (EBin OpMul (EName "count_t") (EInt 4))])])];
    (* atop_1_26.py:623-636 *) PClass "PStat" [(EAttr (EName "ctypes") "Structure")] [
      PIAssign "_fields_" (EList [(ETuple [(EStr "gen"); (EName "GEN")]); (ETuple [(EStr "cpu"); (EName "CPU")]); (ETuple [(EStr "dsk"); (EName "DSK")]); (ETuple [(EStr "mem"); (EName "MEM")]); (ETuple [(EStr "net"); (EName "NET")])])];
    (* atop_1_26.py:640-640 *) PAssign "TStat" (EName "PStat");
    (* atop_1_26.py:643-677 *) PClass "Header" [(EAttr (EName "ctypes") "Structure"); (EName "HeaderMixin")] [
      PIAssign "_fields_" (EList [(ETuple [(EStr "magic"); (EAttr (EName "ctypes") "c_uint")]); (ETuple [(EStr "aversion"); (EAttr (EName "ctypes") "c_ushort")]); (ETuple [(EStr "future1"); (EAttr (EName "ctypes") "c_ushort")]); (ETuple [(EStr "future2"); (EAttr (EName "ctypes") "c_ushort")]); (ETuple [(EStr "rawheadlen"); (EAttr (EName "ctypes") "c_ushort")]); (ETuple [(EStr "rawreclen"); (EAttr (EName "ctypes") "c_ushort")]); (ETuple [(EStr "hertz"); (EAttr (EName "ctypes") "c_ushort")]); (ETuple [(EStr "sfuture"); (EBin OpMul (EAttr (EName "ctypes") "c_ushort") (EInt 6))]); (ETuple [(EStr "sstatlen"); (EAttr (EName "ctypes") "c_uint")]); (ETuple [(EStr "pstatlen"); (EAttr (EName "ctypes") "c_uint")]); (ETuple [(EStr "utsname"); (EName "UTSName")]); (ETuple [(EStr "cfuture"); (EBin OpMul (EAttr (EName "ctypes") "c_char") (EInt 8))]); (ETuple [(EStr "pagesize"); (EAttr (EName "ctypes") "c_uint")]); (ETuple [(EStr "supportflags"); (EAttr (EName "ctypes") "c_int")]); (ETuple [(EStr "osrel"); (EAttr (EName "ctypes") "c_int")]); (ETuple [(EStr "osvers"); (EAttr (EName "ctypes") "c_int")]); (ETuple [(EStr "ossub"); (EAttr (EName "ctypes") "c_int")]); (ETuple [(EStr "ifuture"); (EBin OpMul (EAttr (EName "ctypes") "c_int") (EInt 6))])]);
      PIAssign "supported_version" (EStr "1.26");
      PIAssign "Record" (EName "Record");
      PIAssign "SStat" (EName "SStat");
      PIAssign "PStat" (EName "PStat");
      PIAssign "TStat" (EName "PStat");
      PIAssign "CStat" ENone;
      PIAssign "CGChainer" ENone]].

(** atoparser/structs/atop_2_3.py *)
Definition pk_structs_atop_2_3 : list ptop :=
  [
    (* atop_2_3.py:16-16 *) PImport "ctypes";
    (* atop_2_3.py:18-18 *) PFrom "atoparser.structs" "atop_1_26" "atop_1_26";
    (* atop_2_3.py:19-19 *) PFrom "atoparser.structs.shared" "HeaderMixin" "HeaderMixin";
    (* atop_2_3.py:20-20 *) PFrom "atoparser.structs.shared" "UTSName" "UTSName";
    (* atop_2_3.py:21-21 *) PFrom "atoparser.structs.shared" "count_t" "count_t";
    (* atop_2_3.py:22-22 *) PFrom "atoparser.structs.shared" "time_t" "time_t";
    (* atop_2_3.py:29-29 *) PAssign "ACCTACTIVE" (EInt 1);
    (* atop_2_3.py:30-30 *) PAssign "IOSTAT" (EInt 4);
    (* atop_2_3.py:31-31 *) PAssign "NETATOP" (EInt 16);
    (* atop_2_3.py:32-32 *) PAssign "NETATOPD" (EInt 32);
    (* atop_2_3.py:33-33 *) PAssign "DOCKSTAT" (EInt 64);
    (* atop_2_3.py:36-36 *) PAssign "PNAMLEN" (EInt 15);
    (* atop_2_3.py:37-37 *) PAssign "CMDLEN" (EInt 255);
    (* atop_2_3.py:40-40 *) PAssign "MAXCPU" (EInt 2048);
    (* atop_2_3.py:41-41 *) PAssign "MAXDSK" (EInt 1024);
    (* atop_2_3.py:42-42 *) PAssign "MAXLVM" (EInt 2048);
    (* atop_2_3.py:43-43 *) PAssign "MAXMDD" (EInt 256);
    (* atop_2_3.py:44-44 *) PAssign "MAXINTF" (EInt 128);
    (* atop_2_3.py:45-45 *) PAssign "MAXCONTAINER" (EInt 128);
    (* atop_2_3.py:46-46 *) PAssign "MAXNFSMOUNT" (EInt 64);
    (* atop_2_3.py:47-47 *) PAssign "MAXDKNAM" (EInt 32);
    (* atop_2_3.py:50-75 *) PClass "Record" [(EAttr (EName "ctypes") "Structure")] [
      PIAssign "_fields_" (EList [(ETuple [(EStr "curtime"); (EName "time_t")]); (ETuple [(EStr "flags"); (EAttr (EName "ctypes") "c_ushort")]); (ETuple [(EStr "sfuture"); (EBin OpMul (EAttr (EName "ctypes") "c_ushort") (EInt 3))]); (ETuple [(EStr "scomplen"); (EAttr (EName "ctypes") "c_uint")]); (ETuple [(EStr "pcomplen"); (EAttr (EName "ctypes") "c_uint")]); (ETuple [(EStr "interval"); (EAttr (EName "ctypes") "c_uint")]); (ETuple [(EStr "ndeviat"); (EAttr (EName "ctypes") "c_uint")]); (ETuple [(EStr "nactproc"); (EAttr (EName "ctypes") "c_uint")]); (ETuple [(EStr "ntask"); (EAttr (EName "ctypes") "c_uint")]); (ETuple [(EStr "totproc"); (EAttr (EName "ctypes") "c_uint")]); (ETuple [(EStr "totrun"); (EAttr (EName "ctypes") "c_uint")]); (ETuple [(EStr "totslpi"); (EAttr (EName "ctypes") "c_uint")]); (ETuple [(EStr "totslpu"); (EAttr (EName "ctypes") "c_uint")]); (ETuple [(EStr "totzomb"); (EAttr (EName "ctypes") "c_uint")]); (ETuple [(EStr "nexit"); (EAttr (EName "ctypes") "c_uint")]); (ETuple [(EStr "noverflow"); (EAttr (EName "ctypes") "c_uint")]); (ETuple [(EStr "ifuture"); (EBin OpMul (EAttr (EName "ctypes") "c_uint") (EInt 6))])])];
    (* atop_2_3.py:78-111 *) PClass "MemStat" [(EAttr (EName "ctypes") "Structure")] [
      PIAssign "_fields_" (EList [(ETuple [(EStr "physmem"); (EName "count_t")]); (ETuple [(EStr "freemem"); (EName "count_t")]); (ETuple [(EStr "buffermem"); (EName "count_t")]); (ETuple [(EStr "slabmem"); (EName "count_t")]); (ETuple [(EStr "cachemem"); (EName "count_t")]); (ETuple [(EStr "cachedrt"); (EName "count_t")]); (ETuple [(EStr "totswap"); (EName "count_t")]); (ETuple [(EStr "freeswap"); (EName "count_t")]); (ETuple [(EStr "pgscans"); (EName "count_t")]); (ETuple [(EStr "pgsteal"); (EName "count_t")]); (ETuple [(EStr "allocstall"); (EName "count_t")]); (ETuple [(EStr "swouts"); (EName "count_t")]); (ETuple [(EStr "swins"); (EName "count_t")]); (ETuple [(EStr "commitlim"); (EName "count_t")]); (ETuple [(EStr "committed"); (EName "count_t")]); (ETuple [(EStr "shmem"); (EName "count_t")]); (ETuple [(EStr "shmrss"); (EName "count_t")]); (ETuple [(EStr "shmswp"); (EName "count_t")]); (ETuple [(EStr "slabreclaim"); (EName "count_t")]); (ETuple [(EStr "tothugepage"); (EName "count_t")]); (ETuple [(EStr "freehugepage"); (EName "count_t")]); (ETuple [(EStr "hugepagesz"); (EName "count_t")]); (ETuple [(EStr "vmwballoon"); (EName "count_t")]); (ETuple [(EStr "cfuture"); (EBin OpMul (EName "count_t") (EInt 8))])])];
    (* atop_2_3.py:114-114 *) PAssign "FreqCnt" (EAttr (EName "atop_1_26") "FreqCnt");
    (* atop_2_3.py:117-138 *) PClass "PerCPU" [(EAttr (EName "ctypes") "Structure")] [
      PIAssign "_fields_" (EList [(ETuple [(EStr "cpunr"); (EAttr (EName "ctypes") "c_int")]); (ETuple [(EStr "stime"); (EName "count_t")]); (ETuple [(EStr "utime"); (EName "count_t")]); (ETuple [(EStr "ntime"); (EName "count_t")]); (ETuple [(EStr "itime"); (EName "count_t")]); (ETuple [(EStr "wtime"); (EName "count_t")]); (ETuple [(EStr "Itime"); (EName "count_t")]); (ETuple [(EStr "Stime"); (EName "count_t")]); (ETuple [(EStr "steal"); (EName "count_t")]); (ETuple [(EStr "guest"); (EName "count_t")]); (ETuple [(EStr "freqcnt"); (EName "FreqCnt")]); (ETuple [(EStr "cfuture"); (EBin OpMul (EName "count_t") (EInt 4))])])];
    (* atop_2_3.py:141-161 *) PClass "CPUStat" [(EAttr (EName "ctypes") "Structure")] [
      PIAssign "_fields_" (EList [(ETuple [(EStr "nrcpu"); (EName "count_t")]); (ETuple [(EStr "devint"); (EName "count_t")]); (ETuple [(EStr "csw"); (EName "count_t")]); (ETuple [(EStr "nprocs"); (EName "count_t")]); (ETuple [(EStr "lavg1"); (EAttr (EName "ctypes") "c_float")]); (ETuple [(EStr "lavg5"); (EAttr (EName "ctypes") "c_float")]); (ETuple [(EStr "lavg15"); (EAttr (EName "ctypes") "c_float")]); (ETuple [(EStr "cfuture"); (EBin OpMul (EName "count_t") (EInt 4))]); (ETuple [(EStr "all"); (EName "PerCPU")]); (ETuple [(EStr "cpu"); (EBin OpMul (EName "PerCPU") (EName "MAXCPU"))])]);
      PIAssign "fields_limiters" (EDict [((EStr "cpu"), (EStr "nrcpu"))])];
    (* atop_2_3.py:164-181 *) PClass "PerDSK" [(EAttr (EName "ctypes") "Structure")] [
      PIAssign "_fields_" (EList [(ETuple [(EStr "name"); (EBin OpMul (EAttr (EName "ctypes") "c_char") (EName "MAXDKNAM"))]); (ETuple [(EStr "nread"); (EName "count_t")]); (ETuple [(EStr "nrsect"); (EName "count_t")]); (ETuple [(EStr "nwrite"); (EName "count_t")]); (ETuple [(EStr "nwsect"); (EName "count_t")]); (ETuple [(EStr "io_ms"); (EName "count_t")]); (ETuple [(EStr "avque"); (EName "count_t")]); (ETuple [(EStr "cfuture"); (EBin OpMul (EName "count_t") (EInt 4))])])];
    (* atop_2_3.py:184-204 *) PClass "DSKStat" [(EAttr (EName "ctypes") "Structure")] [
      PIAssign "_fields_" (EList [(ETuple [(EStr "ndsk"); (EAttr (EName "ctypes") "c_int")]); (ETuple [(EStr "nmdd"); (EAttr (EName "ctypes") "c_int")]); (ETuple [(EStr "nlvm"); (EAttr (EName "ctypes") "c_int")]); (ETuple [(EStr "dsk"); (EBin OpMul (EName "PerDSK") (EName "MAXDSK"))]); (ETuple [(EStr "mdd"); (EBin OpMul (EName "PerDSK") (EName "MAXMDD"))]); (ETuple [(EStr "lvm"); (EBin OpMul (EName "PerDSK") (EName "MAXLVM"))])]);
      PIAssign "fields_limiters" (EDict [((EStr "dsk"), (EStr "ndsk")); ((EStr "mdd"), (EStr "nmdd")); ((EStr "lvm"), (EStr "nlvm"))])];
    (* atop_2_3.py:207-240 *) PClass "PerIntf" [(EAttr (EName "ctypes") "Structure")] [
      PIAssign "_fields_" (EList [(ETuple [(EStr "name"); (EBin OpMul (EAttr (EName "ctypes") "c_char") (EInt 16))]); (ETuple [(EStr "rbyte"); (EName "count_t")]); (ETuple [(EStr "rpack"); (EName "count_t")]); (ETuple [(EStr "rerrs"); (EName "count_t")]); (ETuple [(EStr "rdrop"); (EName "count_t")]); (ETuple [(EStr "rfifo"); (EName "count_t")]); (ETuple [(EStr "rframe"); (EName "count_t")]); (ETuple [(EStr "rcompr"); (EName "count_t")]); (ETuple [(EStr "rmultic"); (EName "count_t")]); (ETuple [(EStr "rfuture"); (EBin OpMul (EName "count_t") (EInt 4))]); (ETuple [(EStr "sbyte"); (EName "count_t")]); (ETuple [(EStr "spack"); (EName "count_t")]); (ETuple [(EStr "serrs"); (EName "count_t")]); (ETuple [(EStr "sdrop"); (EName "count_t")]); (ETuple [(EStr "sfifo"); (EName "count_t")]); (ETuple [(EStr "scollis"); (EName "count_t")]); (ETuple [(EStr "scarrier"); (EName "count_t")]); (ETuple [(EStr "scompr"); (EName "count_t")]); (ETuple [(EStr "sfuture"); (EBin OpMul (EName "count_t") (EInt 4))]); (ETuple [(EStr "type"); (EAttr (EName "ctypes") "c_char")]); (ETuple [(EStr "speed"); (EAttr (EName "ctypes") "c_long")]); (ETuple [(EStr "speedp"); (EAttr (EName "ctypes") "c_long")]); (ETuple [(EStr "duplex"); (EAttr (EName "ctypes") "c_char")]); (ETuple [(EStr "cfuture"); (EBin OpMul (EName "count_t") (EInt 4))])])];
    (* atop_2_3.py:243-257 *) PClass "IntfStat" [(EAttr (EName "ctypes") "Structure")] [
      PIAssign "_fields_" (EList [(ETuple [(EStr "nrintf"); (EAttr (EName "ctypes") "c_int")]); (ETuple [(EStr "intf"); (EBin OpMul (EName "PerIntf") (EName "MAXINTF"))])]);
      PIAssign "fields_limiters" (EDict [((EStr "intf"), (EStr "nrintf"))])];
    (* atop_2_3.py:260-280 *) PClass "PerNFSMount" [(EAttr (EName "ctypes") "Structure")] [
      PIAssign "_fields_" (EList [(ETuple [(EStr "mountdev"); (EBin OpMul (EAttr (EName "ctypes") "c_char") (EInt 128))]); (ETuple [(EStr "age"); (EName "count_t")]); (ETuple [(EStr "bytesread"); (EName "count_t")]); (ETuple [(EStr "byteswrite"); (EName "count_t")]); (ETuple [(EStr "bytesdread"); (EName "count_t")]); (ETuple [(EStr "bytesdwrite"); (EName "count_t")]); (ETuple [(EStr "bytestotread"); (EName "count_t")]); (ETuple [(EStr "bytestotwrite"); (EName "count_t")]); (ETuple [(EStr "pagesmread"); (EName "count_t")]); (ETuple [(EStr "pagesmwrite"); (EName "count_t")]); (ETuple [(EStr "future"); (EBin OpMul (EName "count_t") (EInt 8))])])];
    (* atop_2_3.py:283-308 *) PClass "Server" [(EAttr (EName "ctypes") "Structure")] [
      PIAssign "_fields_" (EList [(ETuple [(EStr "netcnt"); (EName "count_t")]); (ETuple [(EStr "netudpcnt"); (EName "count_t")]); (ETuple [(EStr "nettcpcnt"); (EName "count_t")]); (ETuple [(EStr "nettcpcon"); (EName "count_t")]); (ETuple [(EStr "rpccnt"); (EName "count_t")]); (ETuple [(EStr "rpcbadfmt"); (EName "count_t")]); (ETuple [(EStr "rpcbadaut"); (EName "count_t")]); (ETuple [(EStr "rpcbadcln"); (EName "count_t")]); (ETuple [(EStr "rpcread"); (EName "count_t")]); (ETuple [(EStr "rpcwrite"); (EName "count_t")]); (ETuple [(EStr "rchits"); (EName "count_t")]); (ETuple [(EStr "rcmiss"); (EName "count_t")]); (ETuple [(EStr "rcnoca"); (EName "count_t")]); (ETuple [(EStr "nrbytes"); (EName "count_t")]); (ETuple [(EStr "nwbytes"); (EName "count_t")]); (ETuple [(EStr "future"); (EBin OpMul (EName "count_t") (EInt 8))])])];
    (* atop_2_3.py:311-326 *) PClass "Client" [(EAttr (EName "ctypes") "Structure")] [
      PIAssign "_fields_" (EList [(ETuple [(EStr "rpccnt"); (EName "count_t")]); (ETuple [(EStr "rpcretrans"); (EName "count_t")]); (ETuple [(EStr "rpcautrefresh"); (EName "count_t")]); (ETuple [(EStr "rpcread"); (EName "count_t")]); (ETuple [(EStr "rpcwrite"); (EName "count_t")]); (ETuple [(EStr "future"); (EBin OpMul (EName "count_t") (EInt 8))])])];
    (* atop_2_3.py:329-343 *) PClass "NFSMounts" [(EAttr (EName "ctypes") "Structure")] [
      PIAssign "_fields_" (EList [(ETuple [(EStr "nrmounts"); (EAttr (EName "ctypes") "c_int")]); (ETuple [(EStr "nfsmnt"); (EBin OpMul (EName "PerNFSMount") (EName "MAXNFSMOUNT"))])]);
      PIAssign "fields_limiters" (EDict [((EStr "nfsmnt"), (EStr "nrmounts"))])];
    (* atop_2_3.py:346-358 *) PClass "NFSStat" [(EAttr (EName "ctypes") "Structure")] [
      PIAssign "_fields_" (EList [(ETuple [(EStr "server"); (EName "Server")]); (ETuple [(EStr "client"); (EName "Client")]); (ETuple [(EStr "nfsmounts"); (EName "NFSMounts")])])];
    (* atop_2_3.py:361-377 *) PClass "PerContainer" [(EAttr (EName "ctypes") "Structure")] [
      PIAssign "_fields_" (EList [(ETuple [(EStr "ctid"); (EAttr (EName "ctypes") "c_ulong")]); (ETuple [(EStr "numproc"); (EAttr (EName "ctypes") "c_ulong")]); (ETuple [(EStr "system"); (EName "count_t")]); (ETuple [(EStr "user"); (EName "count_t")]); (ETuple [(EStr "nice"); (EName "count_t")]); (ETuple [(EStr "uptime"); (EName "count_t")]); (ETuple [(EStr "physpages"); (EName "count_t")])])];
    (* atop_2_3.py:380-394 *) PClass "ContStat" [(EAttr (EName "ctypes") "Structure")] [
      PIAssign "_fields_" (EList [(ETuple [(EStr "nrcontainer"); (EAttr (EName "ctypes") "c_int")]); (ETuple [(EStr "cont"); (EBin OpMul (EName "PerContainer") (EName "MAXCONTAINER"))])]);
      PIAssign "fields_limiters" (EDict [((EStr "cont"), (EStr "nrcontainer"))])];
    (* atop_2_3.py:397-397 *) PAssign "WWWStat" (EAttr (EName "atop_1_26") "WWWStat");
    (* atop_2_3.py:400-400 *) PAssign "IPv4Stats" (EAttr (EName "atop_1_26") "IPv4Stats");
    (* atop_2_3.py:403-403 *) PAssign "ICMPv4Stats" (EAttr (EName "atop_1_26") "ICMPv4Stats");
    (* atop_2_3.py:406-406 *) PAssign "UDPv4Stats" (EAttr (EName "atop_1_26") "UDPv4Stats");
    (* atop_2_3.py:409-409 *) PAssign "TCPStats" (EAttr (EName "atop_1_26") "TCPStats");
    (* atop_2_3.py:412-412 *) PAssign "IPv6Stats" (EAttr (EName "atop_1_26") "IPv6Stats");
    (* atop_2_3.py:415-415 *) PAssign "ICMPv6Stats" (EAttr (EName "atop_1_26") "ICMPv6Stats");
    (* atop_2_3.py:418-418 *) PAssign "UDPv6Stats" (EAttr (EName "atop_1_26") "UDPv6Stats");
    (* atop_2_3.py:421-421 *) PAssign "NETStat" (EAttr (EName "atop_1_26") "NETStat");
    (* atop_2_3.py:424-440 *) PClass "SStat" [(EAttr (EName "ctypes") "Structure")] [
      PIAssign "_fields_" (EList [(ETuple [(EStr "cpu"); (EName "CPUStat")]); (ETuple [(EStr "mem"); (EName "MemStat")]); (ETuple [(EStr "net"); (EName "NETStat")]); (ETuple [(EStr "intf"); (EName "IntfStat")]); (ETuple [(EStr "dsk"); (EName "DSKStat")]); (ETuple [(EStr "nfs"); (EName "NFSStat")]); (ETuple [(EStr "cfs"); (EName "ContStat")]); (ETuple [(EStr "www"); (EName "WWWStat")])])];
    (* atop_2_3.py:443-478 *) PClass "GEN" [(EAttr (EName "ctypes") "Structure")] [
      PIAssign "_fields_" (EList [(ETuple [(EStr "tgid"); (EAttr (EName "ctypes") "c_int")]); (ETuple [(EStr "pid"); (EAttr (EName "ctypes") "c_int")]); (ETuple [(EStr "ppid"); (EAttr (EName "ctypes") "c_int")]); (ETuple [(EStr "ruid"); (EAttr (EName "ctypes") "c_int")]); (ETuple [(EStr "euid"); (EAttr (EName "ctypes") "c_int")]); (ETuple [(EStr "suid"); (EAttr (EName "ctypes") "c_int")]); (ETuple [(EStr "fsuid"); (EAttr (EName "ctypes") "c_int")]); (ETuple [(EStr "rgid"); (EAttr (EName "ctypes") "c_int")]); (ETuple [(EStr "egid"); (EAttr (EName "ctypes") "c_int")]); (ETuple [(EStr "sgid"); (EAttr (EName "ctypes") "c_int")]); (ETuple [(EStr "fsgid"); (EAttr (EName "ctypes") "c_int")]); (ETuple [(EStr "nthr"); (EAttr (EName "ctypes") "c_int")]); (ETuple [(EStr "name"); (EBin OpMul (EAttr (EName "ctypes") "c_char") (EBin OpAdd (EName "PNAMLEN") (EInt 1)))]); (ETuple [(EStr "isproc"); (EAttr (EName "ctypes") "c_char")]); (ETuple [(EStr "state"); (EAttr (EName "ctypes") "c_char")]); (ETuple [(EStr "excode"); (EAttr (EName "ctypes") "c_int")]); (ETuple [(EStr "btime"); (EName "time_t")]); (ETuple [(EStr "elaps"); (EName "time_t")]); (ETuple [(EStr "cmdline"); (EBin OpMul (EAttr (EName "ctypes") "c_char") (EBin OpAdd (EName "CMDLEN") (EInt 1)))]); (ETuple [(EStr "nthrslpi"); (EAttr (EName "ctypes") "c_int")]); (ETuple [(EStr "nthrslpu"); (EAttr (EName "ctypes") "c_int")]); (ETuple [(EStr "nthrrun"); (EAttr (EName "ctypes") "c_int")]); (ETuple [(EStr "ctid"); (EAttr (EName "ctypes") "c_int")]); (ETuple [(EStr "vpid"); (EAttr (EName "ctypes") "c_int")]); (ETuple [(EStr "wasinactive"); (EAttr (EName "ctypes") "c_int")]); (ETuple [(EStr "container"); (EBin OpMul (EAttr (EName "ctypes") "c_char") (EInt 16))])])];
    (* atop_2_3.py:481-481 *) PAssign "CPU" (EAttr (EName "atop_1_26") "CPU");
    (* atop_2_3.py:484-484 *) PAssign "DSK" (EAttr (EName "atop_1_26") "DSK");
    (* atop_2_3.py:487-509 *) PClass "MEM" [(EAttr (EName "ctypes") "Structure")] [
      PIAssign "_fields_" (EList [(ETuple [(EStr "minflt"); (EName "count_t")]); (ETuple [(EStr "majflt"); (EName "count_t")]); (ETuple [(EStr "vexec"); (EName "count_t")]); (ETuple [(EStr "vmem"); (EName "count_t")]); (ETuple [(EStr "rmem"); (EName "count_t")]); (ETuple [(EStr "pmem"); (EName "count_t")]); (ETuple [(EStr "vgrow"); (EName "count_t")]); (ETuple [(EStr "rgrow"); (EName "count_t")]); (ETuple [(EStr "vdata"); (EName "count_t")]); (ETuple [(EStr "vstack"); (EName "count_t")]); (ETuple [(EStr "vlibs"); (EName "count_t")]); (ETuple [(EStr "vswap"); (EName "count_t")]); (ETuple [(EStr "cfuture"); (EBin OpMul (EName "count_t") (EInt 4))])])];
    (* atop_2_3.py:512-532 *) PClass "NET" [(EAttr (EName "ctypes") "Structure")] [
      PIAssign "_fields_" (EList [(ETuple [(EStr "tcpsnd"); (EName "count_t")]); (ETuple [(EStr "tcpssz"); (EName "count_t")]); (ETuple [(EStr "tcprcv"); (EName "count_t")]); (ETuple [(EStr "tcprsz"); (EName "count_t")]); (ETuple [(EStr "udpsnd"); (EName "count_t")]); (ETuple [(EStr "udpssz"); (EName "count_t")]); (ETuple [(EStr "udprcv"); (EName "count_t")]); (ETuple [(EStr "udprsz"); (EName "count_t")]); (ETuple [(EStr "avail1"); (EName "count_t")]); (ETuple [(EStr "avail2"); (EName "count_t")]); (ETuple [(EStr "cfuture"); (EBin OpMul (EName "count_t") (EInt 4))])])];
    (* atop_2_3.py:535-548 *) PClass "TStat" [(EAttr (EName "ctypes") "Structure")] [
      PIAssign "_fields_" (EList [(ETuple [(EStr "gen"); (EName "GEN")]); (ETuple [(EStr "cpu"); (EName "CPU")]); (ETuple [(EStr "dsk"); (EName "DSK")]); (ETuple [(EStr "mem"); (EName "MEM")]); (ETuple [(EStr "net"); (EName "NET")])])];
    (* atop_2_3.py:551-583 *) PClass "Header" [(EAttr (EName "ctypes") "Structure"); (EName "HeaderMixin")] [
      PIAssign "_fields_" (EList [(ETuple [(EStr "magic"); (EAttr (EName "ctypes") "c_uint")]); (ETuple [(EStr "aversion"); (EAttr (EName "ctypes") "c_ushort")]); (ETuple [(EStr "future1"); (EAttr (EName "ctypes") "c_ushort")]); (ETuple [(EStr "future2"); (EAttr (EName "ctypes") "c_ushort")]); (ETuple [(EStr "rawheadlen"); (EAttr (EName "ctypes") "c_ushort")]); (ETuple [(EStr "rawreclen"); (EAttr (EName "ctypes") "c_ushort")]); (ETuple [(EStr "hertz"); (EAttr (EName "ctypes") "c_ushort")]); (ETuple [(EStr "sfuture"); (EBin OpMul (EAttr (EName "ctypes") "c_ushort") (EInt 6))]); (ETuple [(EStr "sstatlen"); (EAttr (EName "ctypes") "c_uint")]); (ETuple [(EStr "tstatlen"); (EAttr (EName "ctypes") "c_uint")]); (ETuple [(EStr "utsname"); (EName "UTSName")]); (ETuple [(EStr "cfuture"); (EBin OpMul (EAttr (EName "ctypes") "c_char") (EInt 8))]); (ETuple [(EStr "pagesize"); (EAttr (EName "ctypes") "c_uint")]); (ETuple [(EStr "supportflags"); (EAttr (EName "ctypes") "c_int")]); (ETuple [(EStr "osrel"); (EAttr (EName "ctypes") "c_int")]); (ETuple [(EStr "osvers"); (EAttr (EName "ctypes") "c_int")]); (ETuple [(EStr "ossub"); (EAttr (EName "ctypes") "c_int")]); (ETuple [(EStr "ifuture"); (EBin OpMul (EAttr (EName "ctypes") "c_int") (EInt 6))])]);
      PIAssign "supported_version" (EStr "2.3");
      PIAssign "Record" (EName "Record");
      PIAssign "SStat" (EName "SStat");
      PIAssign "TStat" (EName "TStat");
      PIAssign "CStat" ENone;
      PIAssign "CGChainer" ENone]].

(** atoparser/structs/atop_2_4.py *)
Definition pk_structs_atop_2_4 : list ptop :=
  [
    (* atop_2_4.py:16-16 *) PImport "ctypes";
    (* atop_2_4.py:18-18 *) PFrom "atoparser.structs" "atop_1_26" "atop_1_26";
    (* atop_2_4.py:19-19 *) PFrom "atoparser.structs" "atop_2_3" "atop_2_3";
    (* atop_2_4.py:20-20 *) PFrom "atoparser.structs.shared" "count_t" "count_t";
    (* atop_2_4.py:27-27 *) PAssign "ACCTACTIVE" (EInt 1);
    (* atop_2_4.py:28-28 *) PAssign "IOSTAT" (EInt 4);
    (* atop_2_4.py:29-29 *) PAssign "NETATOP" (EInt 16);
    (* atop_2_4.py:30-30 *) PAssign "NETATOPD" (EInt 32);
    (* atop_2_4.py:31-31 *) PAssign "DOCKSTAT" (EInt 64);
    (* atop_2_4.py:32-32 *) PAssign "GPUSTAT" (EInt 128);
    (* atop_2_4.py:35-35 *) PAssign "PNAMLEN" (EInt 15);
    (* atop_2_4.py:36-36 *) PAssign "CMDLEN" (EInt 255);
    (* atop_2_4.py:39-39 *) PAssign "MAXCPU" (EInt 2048);
    (* atop_2_4.py:40-40 *) PAssign "MAXDSK" (EInt 1024);
    (* atop_2_4.py:41-41 *) PAssign "MAXLVM" (EInt 2048);
    (* atop_2_4.py:42-42 *) PAssign "MAXMDD" (EInt 256);
    (* atop_2_4.py:43-43 *) PAssign "MAXINTF" (EInt 128);
    (* atop_2_4.py:44-44 *) PAssign "MAXCONTAINER" (EInt 128);
    (* atop_2_4.py:45-45 *) PAssign "MAXNFSMOUNT" (EInt 64);
    (* atop_2_4.py:46-46 *) PAssign "MAXIBPORT" (EInt 32);
    (* atop_2_4.py:47-47 *) PAssign "MAXGPU" (EInt 32);
    (* atop_2_4.py:48-48 *) PAssign "MAXGPUBUS" (EInt 12);
    (* atop_2_4.py:49-49 *) PAssign "MAXGPUTYPE" (EInt 12);
    (* atop_2_4.py:50-50 *) PAssign "MAXDKNAM" (EInt 32);
    (* atop_2_4.py:51-51 *) PAssign "MAXIBNAME" (EInt 12);
    (* atop_2_4.py:54-54 *) PAssign "Record" (EAttr (EName "atop_2_3") "Record");
    (* atop_2_4.py:57-57 *) PAssign "MemStat" (EAttr (EName "atop_2_3") "MemStat");
    (* atop_2_4.py:60-60 *) PAssign "FreqCnt" (EAttr (EName "atop_1_26") "FreqCnt");
    (* atop_2_4.py:63-86 *) PClass "PerCPU" [(EAttr (EName "ctypes") "Structure")] [
      PIAssign "_fields_" (EList [(ETuple [(EStr "cpunr"); (EAttr (EName "ctypes") "c_int")]); (ETuple [(EStr "stime"); (EName "count_t")]); (ETuple [(EStr "utime"); (EName "count_t")]); (ETuple [(EStr "ntime"); (EName "count_t")]); (ETuple [(EStr "itime"); (EName "count_t")]); (ETuple [(EStr "wtime"); (EName "count_t")]); (ETuple [(EStr "Itime"); (EName "count_t")]); (ETuple [(EStr "Stime"); (EName "count_t")]); (ETuple [(EStr "steal"); (EName "count_t")]); (ETuple [(EStr "guest"); (EName "count_t")]); (ETuple [(EStr "freqcnt"); (EName "FreqCnt")]); (ETuple [(EStr "instr"); (EName "count_t")]); (ETuple [(EStr "cycle"); (EName "count_t")]); (ETuple [(EStr "cfuture"); (EBin OpMul (EName "count_t") (EInt 2))])])];
    (* atop_2_4.py:89-109 *) PClass "CPUStat" [(EAttr (EName "ctypes") "Structure")] [
      PIAssign "_fields_" (EList [(ETuple [(EStr "nrcpu"); (EName "count_t")]); (ETuple [(EStr "devint"); (EName "count_t")]); (ETuple [(EStr "csw"); (EName "count_t")]); (ETuple [(EStr "nprocs"); (EName "count_t")]); (ETuple [(EStr "lavg1"); (EAttr (EName "ctypes") "c_float")]); (ETuple [(EStr "lavg5"); (EAttr (EName "ctypes") "c_float")]); (ETuple [(EStr "lavg15"); (EAttr (EName "ctypes") "c_float")]); (ETuple [(EStr "cfuture"); (EBin OpMul (EName "count_t") (EInt 4))]); (ETuple [(EStr "all"); (EName "PerCPU")]); (ETuple [(EStr "cpu"); (EBin OpMul (EName "PerCPU") (EName "MAXCPU"))])]);
      PIAssign "fields_limiters" (EDict [((EStr "cpu"), (EStr "nrcpu"))])];
    (* atop_2_4.py:112-112 *) PAssign "PerDSK" (EAttr (EName "atop_2_3") "PerDSK");
    (* atop_2_4.py:115-115 *) PAssign "DSKStat" (EAttr (EName "atop_2_3") "DSKStat");
    (* atop_2_4.py:118-118 *) PAssign "PerIntf" (EAttr (EName "atop_2_3") "PerIntf");
    (* atop_2_4.py:121-121 *) PAssign "IntfStat" (EAttr (EName "atop_2_3") "IntfStat");
    (* atop_2_4.py:124-124 *) PAssign "PerNFSMount" (EAttr (EName "atop_2_3") "PerNFSMount");
    (* atop_2_4.py:127-127 *) PAssign "Server" (EAttr (EName "atop_2_3") "Server");
    (* atop_2_4.py:130-130 *) PAssign "Client" (EAttr (EName "atop_2_3") "Client");
    (* atop_2_4.py:133-133 *) PAssign "NFSMounts" (EAttr (EName "atop_2_3") "NFSMounts");
    (* atop_2_4.py:136-136 *) PAssign "NFSStat" (EAttr (EName "atop_2_3") "NFSStat");
    (* atop_2_4.py:139-152 *) PClass "PSI" [(EAttr (EName "ctypes") "Structure")] [
      PIAssign "_fields_" (EList [(ETuple [(EStr "avg10"); (EAttr (EName "ctypes") "c_float")]); (ETuple [(EStr "avg60"); (EAttr (EName "ctypes") "c_float")]); (ETuple [(EStr "avg300"); (EAttr (EName "ctypes") "c_float")]); (ETuple [(EStr "total"); (EName "count_t")])])];
    (* atop_2_4.py:155-171 *) PClass "Pressure" [(EAttr (EName "ctypes") "Structure")] [
      PIAssign "_fields_" (EList [(ETuple [(EStr "present"); (EAttr (EName "ctypes") "c_char")]); (ETuple [(EStr "future"); (EBin OpMul (EAttr (EName "ctypes") "c_char") (EInt 3))]); (ETuple [(EStr "cpusome"); (EName "PSI")]); (ETuple [(EStr "memsome"); (EName "PSI")]); (ETuple [(EStr "memfull"); (EName "PSI")]); (ETuple [(EStr "iosome"); (EName "PSI")]); (ETuple [(EStr "iofull"); (EName "PSI")])])];
    (* atop_2_4.py:174-174 *) PAssign "PerContainer" (EAttr (EName "atop_2_3") "PerContainer");
    (* atop_2_4.py:177-177 *) PAssign "ContStat" (EAttr (EName "atop_2_3") "ContStat");
    (* atop_2_4.py:180-180 *) PAssign "WWWStat" (EAttr (EName "atop_1_26") "WWWStat");
    (* atop_2_4.py:183-205 *) PClass "PerGPU" [(EAttr (EName "ctypes") "Structure")] [
      PIAssign "_fields_" (EList [(ETuple [(EStr "taskstats"); (EAttr (EName "ctypes") "c_char")]); (ETuple [(EStr "nrprocs"); (EAttr (EName "ctypes") "c_uint8")]); (ETuple [(EStr "type"); (EBin OpMul (EAttr (EName "ctypes") "c_char") (EBin OpAdd (EName "MAXGPUTYPE") (EInt 1)))]); (ETuple [(EStr "busid"); (EBin OpMul (EAttr (EName "ctypes") "c_char") (EBin OpAdd (EName "MAXGPUBUS") (EInt 1)))]); (ETuple [(EStr "gpunr"); (EAttr (EName "ctypes") "c_int")]); (ETuple [(EStr "gpupercnow"); (EAttr (EName "ctypes") "c_int")]); (ETuple [(EStr "mempercnow"); (EAttr (EName "ctypes") "c_int")]); (ETuple [(EStr "memtotnow"); (EName "count_t")]); (ETuple [(EStr "memusenow"); (EName "count_t")]); (ETuple [(EStr "samples"); (EName "count_t")]); (ETuple [(EStr "gpuperccum"); (EName "count_t")]); (ETuple [(EStr "memperccum"); (EName "count_t")]); (ETuple [(EStr "memusecum"); (EName "count_t")])])];
    (* atop_2_4.py:208-222 *) PClass "GPUStat" [(EAttr (EName "ctypes") "Structure")] [
      PIAssign "_fields_" (EList [(ETuple [(EStr "nrgpus"); (EAttr (EName "ctypes") "c_int")]); (ETuple [(EStr "gpu"); (EBin OpMul (EName "PerGPU") (EName "MAXGPU"))])]);
      PIAssign "fields_limiters" (EDict [((EStr "gpu"), (EStr "nrgpus"))])];
    (* atop_2_4.py:225-242 *) PClass "PerIFB" [(EAttr (EName "ctypes") "Structure")] [
      PIAssign "_fields_" (EList [(ETuple [(EStr "ibname"); (EBin OpMul (EAttr (EName "ctypes") "c_char") (EName "MAXIBNAME"))]); (ETuple [(EStr "portnr"); (EAttr (EName "ctypes") "c_short")]); (ETuple [(EStr "lanes"); (EAttr (EName "ctypes") "c_short")]); (ETuple [(EStr "rate"); (EName "count_t")]); (ETuple [(EStr "rcvb"); (EName "count_t")]); (ETuple [(EStr "sndb"); (EName "count_t")]); (ETuple [(EStr "rcvp"); (EName "count_t")]); (ETuple [(EStr "sndp"); (EName "count_t")])])];
    (* atop_2_4.py:245-259 *) PClass "IFBStat" [(EAttr (EName "ctypes") "Structure")] [
      PIAssign "_fields_" (EList [(ETuple [(EStr "nrports"); (EAttr (EName "ctypes") "c_int")]); (ETuple [(EStr "ifb"); (EBin OpMul (EName "PerIFB") (EName "MAXIBPORT"))])]);
      PIAssign "fields_limiters" (EDict [((EStr "ifb"), (EStr "nrports"))])];
    (* atop_2_4.py:262-262 *) PAssign "IPv4Stats" (EAttr (EName "atop_1_26") "IPv4Stats");
    (* atop_2_4.py:265-265 *) PAssign "ICMPv4Stats" (EAttr (EName "atop_1_26") "ICMPv4Stats");
    (* atop_2_4.py:268-268 *) PAssign "UDPv4Stats" (EAttr (EName "atop_1_26") "UDPv4Stats");
    (* atop_2_4.py:271-271 *) PAssign "TCPStats" (EAttr (EName "atop_1_26") "TCPStats");
    (* atop_2_4.py:274-274 *) PAssign "IPv6Stats" (EAttr (EName "atop_1_26") "IPv6Stats");
    (* atop_2_4.py:277-277 *) PAssign "ICMPv6Stats" (EAttr (EName "atop_1_26") "ICMPv6Stats");
    (* atop_2_4.py:280-280 *) PAssign "UDPv6Stats" (EAttr (EName "atop_1_26") "UDPv6Stats");
    (* atop_2_4.py:283-283 *) PAssign "NETStat" (EAttr (EName "atop_1_26") "NETStat");
    (* atop_2_4.py:286-305 *) PClass "SStat" [(EAttr (EName "ctypes") "Structure")] [
      PIAssign "_fields_" (EList [(ETuple [(EStr "cpu"); (EName "CPUStat")]); (ETuple [(EStr "mem"); (EName "MemStat")]); (ETuple [(EStr "net"); (EName "NETStat")]); (ETuple [(EStr "intf"); (EName "IntfStat")]); (ETuple [(EStr "dsk"); (EName "DSKStat")]); (ETuple [(EStr "nfs"); (EName "NFSStat")]); (ETuple [(EStr "cfs"); (EName "ContStat")]); (ETuple [(EStr "psi"); (EName "Pressure")]); (ETuple [(EStr "gpu"); (EName "GPUStat")]); (ETuple [(EStr "ifb"); (EName "IFBStat")]); (ETuple [(EStr "www"); (EName "WWWStat")])])];
    (* atop_2_4.py:308-308 *) PAssign "GEN" (EAttr (EName "atop_2_3") "GEN");
    (* atop_2_4.py:311-311 *) PAssign "CPU" (EAttr (EName "atop_1_26") "CPU");
    (* atop_2_4.py:314-314 *) PAssign "DSK" (EAttr (EName "atop_1_26") "DSK");
    (* atop_2_4.py:317-317 *) PAssign "MEM" (EAttr (EName "atop_2_3") "MEM");
    (* atop_2_4.py:320-320 *) PAssign "NET" (EAttr (EName "atop_2_3") "NET");
    (* atop_2_4.py:323-342 *) PClass "GPU" [(EAttr (EName "ctypes") "Structure")] [
      PIAssign "_fields_" (EList [(ETuple [(EStr "state"); (EAttr (EName "ctypes") "c_char")]); (ETuple [(EStr "cfuture"); (EBin OpMul (EAttr (EName "ctypes") "c_char") (EInt 3))]); (ETuple [(EStr "nrgpus"); (EAttr (EName "ctypes") "c_short")]); (ETuple [(EStr "gpulist"); (EAttr (EName "ctypes") "c_int32")]); (ETuple [(EStr "gpubusy"); (EAttr (EName "ctypes") "c_int")]); (ETuple [(EStr "membusy"); (EAttr (EName "ctypes") "c_int")]); (ETuple [(EStr "timems"); (EName "count_t")]); (ETuple [(EStr "memnow"); (EName "count_t")]); (ETuple [(EStr "memcum"); (EName "count_t")]); (ETuple [(EStr "sample"); (EName "count_t")])])];
    (* atop_2_4.py:345-359 *) PClass "TStat" [(EAttr (EName "ctypes") "Structure")] [
      PIAssign "_fields_" (EList [(ETuple [(EStr "gen"); (EName "GEN")]); (ETuple [(EStr "cpu"); (EName "CPU")]); (ETuple [(EStr "dsk"); (EName "DSK")]); (ETuple [(EStr "mem"); (EName "MEM")]); (ETuple [(EStr "net"); (EName "NET")]); (ETuple [(EStr "gpu"); (EName "GPU")])])];
    (* atop_2_4.py:362-370 *) PClass "Header" [(EAttr (EName "atop_2_3") "Header")] [
      PIAssign "supported_version" (EStr "2.4");
      PIAssign "Record" (EName "Record");
      PIAssign "SStat" (EName "SStat");
      PIAssign "TStat" (EName "TStat");
      PIAssign "CStat" ENone;
      PIAssign "CGChainer" ENone]].

(** atoparser/structs/atop_2_5.py *)
Definition pk_structs_atop_2_5 : list ptop :=
  [
    (* atop_2_5.py:16-16 *) PFrom "atoparser.structs" "atop_1_26" "atop_1_26";
    (* atop_2_5.py:17-17 *) PFrom "atoparser.structs" "atop_2_3" "atop_2_3";
    (* atop_2_5.py:18-18 *) PFrom "atoparser.structs" "atop_2_4" "atop_2_4";
    (* atop_2_5.py:25-25 *) PAssign "ACCTACTIVE" (EInt 1);
    (* atop_2_5.py:26-26 *) PAssign "IOSTAT" (EInt 4);
    (* atop_2_5.py:27-27 *) PAssign "NETATOP" (EInt 16);
    (* atop_2_5.py:28-28 *) PAssign "NETATOPD" (EInt 32);
    (* atop_2_5.py:29-29 *) PAssign "DOCKSTAT" (EInt 64);
    (* atop_2_5.py:30-30 *) PAssign "GPUSTAT" (EInt 128);
    (* atop_2_5.py:33-33 *) PAssign "PNAMLEN" (EInt 15);
    (* atop_2_5.py:34-34 *) PAssign "CMDLEN" (EInt 255);
    (* atop_2_5.py:37-37 *) PAssign "MAXCPU" (EInt 2048);
    (* atop_2_5.py:38-38 *) PAssign "MAXDSK" (EInt 1024);
    (* atop_2_5.py:39-39 *) PAssign "MAXLVM" (EInt 2048);
    (* atop_2_5.py:40-40 *) PAssign "MAXMDD" (EInt 256);
    (* atop_2_5.py:41-41 *) PAssign "MAXINTF" (EInt 128);
    (* atop_2_5.py:42-42 *) PAssign "MAXCONTAINER" (EInt 128);
    (* atop_2_5.py:43-43 *) PAssign "MAXNFSMOUNT" (EInt 64);
    (* atop_2_5.py:44-44 *) PAssign "MAXIBPORT" (EInt 32);
    (* atop_2_5.py:45-45 *) PAssign "MAXGPU" (EInt 32);
    (* atop_2_5.py:46-46 *) PAssign "MAXGPUBUS" (EInt 12);
    (* atop_2_5.py:47-47 *) PAssign "MAXGPUTYPE" (EInt 12);
    (* atop_2_5.py:48-48 *) PAssign "MAXDKNAM" (EInt 32);
    (* atop_2_5.py:49-49 *) PAssign "MAXIBNAME" (EInt 12);
    (* atop_2_5.py:52-52 *) PAssign "Record" (EAttr (EName "atop_2_3") "Record");
    (* atop_2_5.py:55-55 *) PAssign "MemStat" (EAttr (EName "atop_2_3") "MemStat");
    (* atop_2_5.py:58-58 *) PAssign "FreqCnt" (EAttr (EName "atop_1_26") "FreqCnt");
    (* atop_2_5.py:61-61 *) PAssign "PerCPU" (EAttr (EName "atop_2_3") "PerCPU");
    (* atop_2_5.py:64-64 *) PAssign "CPUStat" (EAttr (EName "atop_2_3") "CPUStat");
    (* atop_2_5.py:67-67 *) PAssign "PerDSK" (EAttr (EName "atop_2_3") "PerDSK");
    (* atop_2_5.py:70-70 *) PAssign "DSKStat" (EAttr (EName "atop_2_3") "DSKStat");
    (* atop_2_5.py:73-73 *) PAssign "PerIntf" (EAttr (EName "atop_2_3") "PerIntf");
    (* atop_2_5.py:76-76 *) PAssign "IntfStat" (EAttr (EName "atop_2_3") "IntfStat");
    (* atop_2_5.py:79-79 *) PAssign "PerNFSMount" (EAttr (EName "atop_2_3") "PerNFSMount");
    (* atop_2_5.py:82-82 *) PAssign "Server" (EAttr (EName "atop_2_3") "Server");
    (* atop_2_5.py:85-85 *) PAssign "Client" (EAttr (EName "atop_2_3") "Client");
    (* atop_2_5.py:88-88 *) PAssign "NFSMounts" (EAttr (EName "atop_2_3") "NFSMounts");
    (* atop_2_5.py:91-91 *) PAssign "NFSStat" (EAttr (EName "atop_2_3") "NFSStat");
    (* atop_2_5.py:94-94 *) PAssign "PSI" (EAttr (EName "atop_2_4") "PSI");
    (* atop_2_5.py:97-97 *) PAssign "Pressure" (EAttr (EName "atop_2_4") "Pressure");
    (* atop_2_5.py:100-100 *) PAssign "PerContainer" (EAttr (EName "atop_2_3") "PerContainer");
    (* atop_2_5.py:103-103 *) PAssign "ContStat" (EAttr (EName "atop_2_3") "ContStat");
    (* atop_2_5.py:106-106 *) PAssign "WWWStat" (EAttr (EName "atop_1_26") "WWWStat");
    (* atop_2_5.py:109-109 *) PAssign "PerGPU" (EAttr (EName "atop_2_4") "PerGPU");
    (* atop_2_5.py:112-112 *) PAssign "GPUStat" (EAttr (EName "atop_2_4") "GPUStat");
    (* atop_2_5.py:115-115 *) PAssign "PerIFB" (EAttr (EName "atop_2_4") "PerIFB");
    (* atop_2_5.py:118-118 *) PAssign "IFBStat" (EAttr (EName "atop_2_4") "IFBStat");
    (* atop_2_5.py:121-121 *) PAssign "IPv4Stats" (EAttr (EName "atop_1_26") "IPv4Stats");
    (* atop_2_5.py:124-124 *) PAssign "ICMPv4Stats" (EAttr (EName "atop_1_26") "ICMPv4Stats");
    (* atop_2_5.py:127-127 *) PAssign "UDPv4Stats" (EAttr (EName "atop_1_26") "UDPv4Stats");
    (* atop_2_5.py:130-130 *) PAssign "TCPStats" (EAttr (EName "atop_1_26") "TCPStats");
    (* atop_2_5.py:133-133 *) PAssign "IPv6Stats" (EAttr (EName "atop_1_26") "IPv6Stats");
    (* atop_2_5.py:136-136 *) PAssign "ICMPv6Stats" (EAttr (EName "atop_1_26") "ICMPv6Stats");
    (* atop_2_5.py:139-139 *) PAssign "UDPv6Stats" (EAttr (EName "atop_1_26") "UDPv6Stats");
    (* atop_2_5.py:142-142 *) PAssign "NETStat" (EAttr (EName "atop_1_26") "NETStat");
    (* atop_2_5.py:145-145 *) PAssign "SStat" (EAttr (EName "atop_2_4") "SStat");
    (* atop_2_5.py:148-148 *) PAssign "GEN" (EAttr (EName "atop_2_3") "GEN");
    (* atop_2_5.py:151-151 *) PAssign "CPU" (EAttr (EName "atop_1_26") "CPU");
    (* atop_2_5.py:154-154 *) PAssign "DSK" (EAttr (EName "atop_1_26") "DSK");
    (* atop_2_5.py:157-157 *) PAssign "MEM" (EAttr (EName "atop_2_3") "MEM");
    (* atop_2_5.py:160-160 *) PAssign "NET" (EAttr (EName "atop_2_3") "NET");
    (* atop_2_5.py:163-163 *) PAssign "GPU" (EAttr (EName "atop_2_4") "GPU");
    (* atop_2_5.py:166-166 *) PAssign "TStat" (EAttr (EName "atop_2_4") "TStat");
    (* atop_2_5.py:169-177 *) PClass "Header" [(EAttr (EName "atop_2_3") "Header")] [
      PIAssign "supported_version" (EStr "2.5");
      PIAssign "Record" (EName "Record");
      PIAssign "SStat" (EName "SStat");
      PIAssign "TStat" (EName "TStat");
      PIAssign "CStat" ENone;
      PIAssign "CGChainer" ENone]].

(** atoparser/structs/atop_2_6.py *)
Definition pk_structs_atop_2_6 : list ptop :=
  [
    (* atop_2_6.py:16-16 *) PImport "ctypes";
    (* atop_2_6.py:18-18 *) PFrom "atoparser.structs" "atop_1_26" "atop_1_26";
    (* atop_2_6.py:19-19 *) PFrom "atoparser.structs" "atop_2_3" "atop_2_3";
    (* atop_2_6.py:20-20 *) PFrom "atoparser.structs" "atop_2_4" "atop_2_4";
    (* atop_2_6.py:21-21 *) PFrom "atoparser.structs.shared" "count_t" "count_t";
    (* atop_2_6.py:28-28 *) PAssign "ACCTACTIVE" (EInt 1);
    (* atop_2_6.py:29-29 *) PAssign "IOSTAT" (EInt 4);
    (* atop_2_6.py:30-30 *) PAssign "NETATOP" (EInt 16);
    (* atop_2_6.py:31-31 *) PAssign "NETATOPD" (EInt 32);
    (* atop_2_6.py:32-32 *) PAssign "DOCKSTAT" (EInt 64);
    (* atop_2_6.py:33-33 *) PAssign "GPUSTAT" (EInt 128);
    (* atop_2_6.py:36-36 *) PAssign "PNAMLEN" (EInt 15);
    (* atop_2_6.py:37-37 *) PAssign "CMDLEN" (EInt 255);
    (* atop_2_6.py:40-40 *) PAssign "MAXCPU" (EInt 2048);
    (* atop_2_6.py:41-41 *) PAssign "MAXDSK" (EInt 1024);
    (* atop_2_6.py:42-42 *) PAssign "MAXLVM" (EInt 2048);
    (* atop_2_6.py:43-43 *) PAssign "MAXMDD" (EInt 256);
    (* atop_2_6.py:44-44 *) PAssign "MAXINTF" (EInt 128);
    (* atop_2_6.py:45-45 *) PAssign "MAXCONTAINER" (EInt 128);
    (* atop_2_6.py:46-46 *) PAssign "MAXNFSMOUNT" (EInt 64);
    (* atop_2_6.py:47-47 *) PAssign "MAXIBPORT" (EInt 32);
    (* atop_2_6.py:48-48 *) PAssign "MAXGPU" (EInt 32);
    (* atop_2_6.py:49-49 *) PAssign "MAXGPUBUS" (EInt 12);
    (* atop_2_6.py:50-50 *) PAssign "MAXGPUTYPE" (EInt 12);
    (* atop_2_6.py:51-51 *) PAssign "MAXDKNAM" (EInt 32);
    (* atop_2_6.py:52-52 *) PAssign "MAXIBNAME" (EInt 12);
    (* atop_2_6.py:55-55 *) PAssign "Record" (EAttr (EName "atop_2_3") "Record");
    (* atop_2_6.py:58-93 *) PClass "MemStat" [(EAttr (EName "ctypes") "Structure")] [
      PIAssign "_fields_" (EList [(ETuple [(EStr "physmem"); (EName "count_t")]); (ETuple [(EStr "freemem"); (EName "count_t")]); (ETuple [(EStr "buffermem"); (EName "count_t")]); (ETuple [(EStr "slabmem"); (EName "count_t")]); (ETuple [(EStr "cachemem"); (EName "count_t")]); (ETuple [(EStr "cachedrt"); (EName "count_t")]); (ETuple [(EStr "totswap"); (EName "count_t")]); (ETuple [(EStr "freeswap"); (EName "count_t")]); (ETuple [(EStr "pgscans"); (EName "count_t")]); (ETuple [(EStr "pgsteal"); (EName "count_t")]); (ETuple [(EStr "allocstall"); (EName "count_t")]); (ETuple [(EStr "swouts"); (EName "count_t")]); (ETuple [(EStr "swins"); (EName "count_t")]); (ETuple [(EStr "commitlim"); (EName "count_t")]); (ETuple [(EStr "committed"); (EName "count_t")]); (ETuple [(EStr "shmem"); (EName "count_t")]); (ETuple [(EStr "shmrss"); (EName "count_t")]); (ETuple [(EStr "shmswp"); (EName "count_t")]); (ETuple [(EStr "slabreclaim"); (EName "count_t")]); (ETuple [(EStr "tothugepage"); (EName "count_t")]); (ETuple [(EStr "freehugepage"); (EName "count_t")]); (ETuple [(EStr "hugepagesz"); (EName "count_t")]); (ETuple [(EStr "vmwballoon"); (EName "count_t")]); (ETuple [(EStr "zfsarcsize"); (EName "count_t")]); (ETuple [(EStr "swapcached"); (EName "count_t")]); (ETuple [(EStr "cfuture"); (EBin OpMul (EName "count_t") (EInt 6))])])];
    (* atop_2_6.py:96-96 *) PAssign "FreqCnt" (EAttr (EName "atop_1_26") "FreqCnt");
    (* atop_2_6.py:99-122 *) PClass "PerCPU" [(EAttr (EName "ctypes") "Structure")] [
      PIAssign "_fields_" (EList [(ETuple [(EStr "cpunr"); (EAttr (EName "ctypes") "c_int")]); (ETuple [(EStr "stime"); (EName "count_t")]); (ETuple [(EStr "utime"); (EName "count_t")]); (ETuple [(EStr "ntime"); (EName "count_t")]); (ETuple [(EStr "itime"); (EName "count_t")]); (ETuple [(EStr "wtime"); (EName "count_t")]); (ETuple [(EStr "Itime"); (EName "count_t")]); (ETuple [(EStr "Stime"); (EName "count_t")]); (ETuple [(EStr "steal"); (EName "count_t")]); (ETuple [(EStr "guest"); (EName "count_t")]); (ETuple [(EStr "freqcnt"); (EName "FreqCnt")]); (ETuple [(EStr "instr"); (EName "count_t")]); (ETuple [(EStr "cycle"); (EName "count_t")]); (ETuple [(EStr "cfuture"); (EBin OpMul (EName "count_t") (EInt 2))])])];
    (* atop_2_6.py:125-145 *) PClass "CPUStat" [(EAttr (EName "ctypes") "Structure")] [
      PIAssign "_fields_" (EList [(ETuple [(EStr "nrcpu"); (EName "count_t")]); (ETuple [(EStr "devint"); (EName "count_t")]); (ETuple [(EStr "csw"); (EName "count_t")]); (ETuple [(EStr "nprocs"); (EName "count_t")]); (ETuple [(EStr "lavg1"); (EAttr (EName "ctypes") "c_float")]); (ETuple [(EStr "lavg5"); (EAttr (EName "ctypes") "c_float")]); (ETuple [(EStr "lavg15"); (EAttr (EName "ctypes") "c_float")]); (ETuple [(EStr "cfuture"); (EBin OpMul (EName "count_t") (EInt 4))]); (ETuple [(EStr "all"); (EName "PerCPU")]); (ETuple [(EStr "cpu"); (EBin OpMul (EName "PerCPU") (EName "MAXCPU"))])]);
      PIAssign "fields_limiters" (EDict [((EStr "cpu"), (EStr "nrcpu"))])];
    (* atop_2_6.py:148-148 *) PAssign "PerDSK" (EAttr (EName "atop_2_3") "PerDSK");
    (* atop_2_6.py:151-151 *) PAssign "DSKStat" (EAttr (EName "atop_2_3") "DSKStat");
    (* atop_2_6.py:154-154 *) PAssign "PerIntf" (EAttr (EName "atop_2_3") "PerIntf");
    (* atop_2_6.py:157-157 *) PAssign "IntfStat" (EAttr (EName "atop_2_3") "IntfStat");
    (* atop_2_6.py:160-160 *) PAssign "PerNFSMount" (EAttr (EName "atop_2_3") "PerNFSMount");
    (* atop_2_6.py:163-163 *) PAssign "Server" (EAttr (EName "atop_2_3") "Server");
    (* atop_2_6.py:166-166 *) PAssign "Client" (EAttr (EName "atop_2_3") "Client");
    (* atop_2_6.py:169-169 *) PAssign "NFSMounts" (EAttr (EName "atop_2_3") "NFSMounts");
    (* atop_2_6.py:172-172 *) PAssign "NFSStat" (EAttr (EName "atop_2_3") "NFSStat");
    (* atop_2_6.py:175-175 *) PAssign "PSI" (EAttr (EName "atop_2_4") "PSI");
    (* atop_2_6.py:178-178 *) PAssign "Pressure" (EAttr (EName "atop_2_4") "Pressure");
    (* atop_2_6.py:181-181 *) PAssign "PerContainer" (EAttr (EName "atop_2_3") "PerContainer");
    (* atop_2_6.py:184-184 *) PAssign "ContStat" (EAttr (EName "atop_2_3") "ContStat");
    (* atop_2_6.py:187-187 *) PAssign "WWWStat" (EAttr (EName "atop_1_26") "WWWStat");
    (* atop_2_6.py:190-190 *) PAssign "PerGPU" (EAttr (EName "atop_2_4") "PerGPU");
    (* atop_2_6.py:193-193 *) PAssign "GPUStat" (EAttr (EName "atop_2_4") "GPUStat");
    (* atop_2_6.py:196-196 *) PAssign "PerIFB" (EAttr (EName "atop_2_4") "PerIFB");
    (* atop_2_6.py:199-199 *) PAssign "IFBStat" (EAttr (EName "atop_2_4") "IFBStat");
    (* atop_2_6.py:202-202 *) PAssign "IPv4Stats" (EAttr (EName "atop_1_26") "IPv4Stats");
    (* atop_2_6.py:205-205 *) PAssign "ICMPv4Stats" (EAttr (EName "atop_1_26") "ICMPv4Stats");
    (* atop_2_6.py:208-208 *) PAssign "UDPv4Stats" (EAttr (EName "atop_1_26") "UDPv4Stats");
    (* atop_2_6.py:211-211 *) PAssign "TCPStats" (EAttr (EName "atop_1_26") "TCPStats");
    (* atop_2_6.py:214-214 *) PAssign "IPv6Stats" (EAttr (EName "atop_1_26") "IPv6Stats");
    (* atop_2_6.py:217-217 *) PAssign "ICMPv6Stats" (EAttr (EName "atop_1_26") "ICMPv6Stats");
    (* atop_2_6.py:220-220 *) PAssign "UDPv6Stats" (EAttr (EName "atop_1_26") "UDPv6Stats");
    (* atop_2_6.py:223-223 *) PAssign "NETStat" (EAttr (EName "atop_1_26") "NETStat");
    (* atop_2_6.py:226-245 *) PClass "SStat" [(EAttr (EName "ctypes") "Structure")] [
      PIAssign "_fields_" (EList [(ETuple [(EStr "cpu"); (EName "CPUStat")]); (ETuple [(EStr "mem"); (EName "MemStat")]); (ETuple [(EStr "net"); (EName "NETStat")]); (ETuple [(EStr "intf"); (EName "IntfStat")]); (ETuple [(EStr "dsk"); (EName "DSKStat")]); (ETuple [(EStr "nfs"); (EName "NFSStat")]); (ETuple [(EStr "cfs"); (EName "ContStat")]); (ETuple [(EStr "psi"); (EName "Pressure")]); (ETuple [(EStr "gpu"); (EName "GPUStat")]); (ETuple [(EStr "ifb"); (EName "IFBStat")]); (ETuple [(EStr "www"); (EName "WWWStat")])])];
    (* atop_2_6.py:248-248 *) PAssign "GEN" (EAttr (EName "atop_2_3") "GEN");
    (* atop_2_6.py:251-272 *) PClass "CPU" [(EAttr (EName "ctypes") "Structure")] [
      PIAssign "_fields_" (EList [(ETuple [(EStr "utime"); (EName "count_t")]); (ETuple [(EStr "stime"); (EName "count_t")]); (ETuple [(EStr "nice"); (EAttr (EName "ctypes") "c_int")]); (ETuple [(EStr "prio"); (EAttr (EName "ctypes") "c_int")]); (ETuple [(EStr "rtprio"); (EAttr (EName "ctypes") "c_int")]); (ETuple [(EStr "policy"); (EAttr (EName "ctypes") "c_int")]); (ETuple [(EStr "curcpu"); (EAttr (EName "ctypes") "c_int")]); (ETuple [(EStr "sleepavg"); (EAttr (EName "ctypes") "c_int")]); (ETuple [(EStr "ifuture"); (EBin OpMul (EAttr (EName "ctypes") "c_int") (EInt 4))]); (ETuple [(EStr "wchan"); (EBin OpMul (EAttr (EName "ctypes") "c_char") (EInt 16))]); (ETuple [(EStr "rundelay"); (EName "count_t")]); (ETuple [(EStr "cfuture"); (EName "count_t")])])];
    (* atop_2_6.py:275-275 *) PAssign "DSK" (EAttr (EName "atop_1_26") "DSK");
    (* atop_2_6.py:278-301 *) PClass "MEM" [(EAttr (EName "ctypes") "Structure")] [
      PIAssign "_fields_" (EList [(ETuple [(EStr "minflt"); (EName "count_t")]); (ETuple [(EStr "majflt"); (EName "count_t")]); (ETuple [(EStr "vexec"); (EName "count_t")]); (ETuple [(EStr "vmem"); (EName "count_t")]); (ETuple [(EStr "rmem"); (EName "count_t")]); (ETuple [(EStr "pmem"); (EName "count_t")]); (ETuple [(EStr "vgrow"); (EName "count_t")]); (ETuple [(EStr "rgrow"); (EName "count_t")]); (ETuple [(EStr "vdata"); (EName "count_t")]); (ETuple [(EStr "vstack"); (EName "count_t")]); (ETuple [(EStr "vlibs"); (EName "count_t")]); (ETuple [(EStr "vswap"); (EName "count_t")]); (ETuple [(EStr "vlock"); (EName "count_t")]); (ETuple [(EStr "cfuture"); (EBin OpMul (EName "count_t") (EInt 3))])])];
    (* atop_2_6.py:304-304 *) PAssign "NET" (EAttr (EName "atop_2_3") "NET");
    (* atop_2_6.py:307-307 *) PAssign "GPU" (EAttr (EName "atop_2_4") "GPU");
    (* atop_2_6.py:310-324 *) PClass "TStat" [(EAttr (EName "ctypes") "Structure")] [
      PIAssign "_fields_" (EList [(ETuple [(EStr "gen"); (EName "GEN")]); (ETuple [(EStr "cpu"); (EName "CPU")]); (ETuple [(EStr "dsk"); (EName "DSK")]); (ETuple [(EStr "mem"); (EName "MEM")]); (ETuple [(EStr "net"); (EName "NET")]); (ETuple [(EStr "gpu"); (EName "GPU")])])];
    (* atop_2_6.py:327-335 *) PClass "Header" [(EAttr (EName "atop_2_3") "Header")] [
      PIAssign "supported_version" (EStr "2.6");
      PIAssign "Record" (EName "Record");
      PIAssign "SStat" (EName "SStat");
      PIAssign "TStat" (EName "TStat");
      PIAssign "CStat" ENone;
      PIAssign "CGChainer" ENone]].

(** atoparser/structs/atop_2_7.py *)
Definition pk_structs_atop_2_7 : list ptop :=
  [
    (* atop_2_7.py:16-16 *) PImport "ctypes";
    (* atop_2_7.py:18-18 *) PFrom "atoparser.structs" "atop_1_26" "atop_1_26";
    (* atop_2_7.py:19-19 *) PFrom "atoparser.structs" "atop_2_3" "atop_2_3";
    (* atop_2_7.py:20-20 *) PFrom "atoparser.structs" "atop_2_4" "atop_2_4";
    (* atop_2_7.py:21-21 *) PFrom "atoparser.structs" "atop_2_6" "atop_2_6";
    (* atop_2_7.py:22-22 *) PFrom "atoparser.structs.shared" "count_t" "count_t";
    (* atop_2_7.py:29-29 *) PAssign "ACCTACTIVE" (EInt 1);
    (* atop_2_7.py:30-30 *) PAssign "IOSTAT" (EInt 4);
    (* atop_2_7.py:31-31 *) PAssign "NETATOP" (EInt 16);
    (* atop_2_7.py:32-32 *) PAssign "NETATOPD" (EInt 32);
    (* atop_2_7.py:33-33 *) PAssign "DOCKSTAT" (EInt 64);
    (* atop_2_7.py:34-34 *) PAssign "GPUSTAT" (EInt 128);
    (* atop_2_7.py:37-37 *) PAssign "PNAMLEN" (EInt 15);
    (* atop_2_7.py:38-38 *) PAssign "CMDLEN" (EInt 255);
    (* atop_2_7.py:41-41 *) PAssign "MAXCPU" (EInt 2048);
    (* atop_2_7.py:42-42 *) PAssign "MAXDSK" (EInt 1024);
    (* atop_2_7.py:43-43 *) PAssign "MAXNUMA" (EInt 1024);
    (* atop_2_7.py:44-44 *) PAssign "MAXLVM" (EInt 2048);
    (* atop_2_7.py:45-45 *) PAssign "MAXMDD" (EInt 256);
    (* atop_2_7.py:46-46 *) PAssign "MAXINTF" (EInt 128);
    (* atop_2_7.py:47-47 *) PAssign "MAXCONTAINER" (EInt 128);
    (* atop_2_7.py:48-48 *) PAssign "MAXNFSMOUNT" (EInt 64);
    (* atop_2_7.py:49-49 *) PAssign "MAXIBPORT" (EInt 32);
    (* atop_2_7.py:50-50 *) PAssign "MAXGPU" (EInt 32);
    (* atop_2_7.py:51-51 *) PAssign "MAXGPUBUS" (EInt 12);
    (* atop_2_7.py:52-52 *) PAssign "MAXGPUTYPE" (EInt 12);
    (* atop_2_7.py:53-53 *) PAssign "MAXDKNAM" (EInt 32);
    (* atop_2_7.py:54-54 *) PAssign "MAXIBNAME" (EInt 12);
    (* atop_2_7.py:57-57 *) PAssign "Record" (EAttr (EName "atop_2_3") "Record");
    (* atop_2_7.py:60-103 *) PClass "MemStat" [(EAttr (EName "ctypes") "Structure")] [
      PIAssign "_fields_" (EList [(ETuple [(EStr "physmem"); (EName "count_t")]); (ETuple [(EStr "freemem"); (EName "count_t")]); (ETuple [(EStr "buffermem"); (EName "count_t")]); (ETuple [(EStr "slabmem"); (EName "count_t")]); (ETuple [(EStr "cachemem"); (EName "count_t")]); (ETuple [(EStr "cachedrt"); (EName "count_t")]); (ETuple [(EStr "totswap"); (EName "count_t")]); (ETuple [(EStr "freeswap"); (EName "count_t")]); (ETuple [(EStr "pgscans"); (EName "count_t")]); (ETuple [(EStr "pgsteal"); (EName "count_t")]); (ETuple [(EStr "allocstall"); (EName "count_t")]); (ETuple [(EStr "swouts"); (EName "count_t")]); (ETuple [(EStr "swins"); (EName "count_t")]); (ETuple [(EStr "commitlim"); (EName "count_t")]); (ETuple [(EStr "committed"); (EName "count_t")]); (ETuple [(EStr "shmem"); (EName "count_t")]); (ETuple [(EStr "shmrss"); (EName "count_t")]); (ETuple [(EStr "shmswp"); (EName "count_t")]); (ETuple [(EStr "slabreclaim"); (EName "count_t")]); (ETuple [(EStr "tothugepage"); (EName "count_t")]); (ETuple [(EStr "freehugepage"); (EName "count_t")]); (ETuple [(EStr "hugepagesz"); (EName "count_t")]); (ETuple [(EStr "vmwballoon"); (EName "count_t")]); (ETuple [(EStr "zfsarcsize"); (EName "count_t")]); (ETuple [(EStr "swapcached"); (EName "count_t")]); (ETuple [(EStr "ksmsharing"); (EName "count_t")]); (ETuple [(EStr "ksmshared"); (EName "count_t")]); (ETuple [(EStr "zswstored"); (EName "count_t")]); (ETuple [(EStr "zswtotpool"); (EName "count_t")]); (ETuple [(EStr "oomkills"); (EName "count_t")]); (ETuple [(EStr "compactstall"); (EName "count_t")]); (ETuple [(EStr "pgmigrate"); (EName "count_t")]); (ETuple [(EStr "numamigrate"); (EName "count_t")]); (ETuple [(EStr "cfuture"); (EBin OpMul (EName "count_t") (EInt 9))])])];
    (* atop_2_7.py:106-126 *) PClass "MemPerNUMA" [(EAttr (EName "ctypes") "Structure")] [
      PIAssign "_fields_" (EList [(ETuple [(EStr "frag"); (EAttr (EName "ctypes") "c_float")]); (ETuple [(EStr "totmem"); (EName "count_t")]); (ETuple [(EStr "freemem"); (EName "count_t")]); (ETuple [(EStr "filepage"); (EName "count_t")]); (ETuple [(EStr "dirtymem"); (EName "count_t")]); (ETuple [(EStr "slabmem"); (EName "count_t")]); (ETuple [(EStr "slabreclaim"); (EName "count_t")]); (ETuple [(EStr "active"); (EName "count_t")]); (ETuple [(EStr "inactive"); (EName "count_t")]); (ETuple [(EStr "shmem"); (EName "count_t")]); (ETuple [(EStr "tothp"); (EName "count_t")])])];
    (* atop_2_7.py:129-141 *) PClass "MemNUMA" [(EAttr (EName "ctypes") "Structure")] [
      PIAssign "_fields_" (EList [(ETuple [(EStr "nrnuma"); (EName "count_t")]); (ETuple [(EStr "numa"); (EBin OpMul (EName "MemPerNUMA") (EName "MAXNUMA"))])]);
      PIAssign "fields_limiters" (EDict [((EStr "numa"), (EStr "nrnuma"))])];
    (* atop_2_7.py:144-163 *) PClass "CPUPerNUMA" [(EAttr (EName "ctypes") "Structure")] [
      PIAssign "_fields_" (EList [(ETuple [(EStr "nrcpu"); (EName "count_t")]); (ETuple [(EStr "stime"); (EName "count_t")]); (ETuple [(EStr "utime"); (EName "count_t")]); (ETuple [(EStr "ntime"); (EName "count_t")]); (ETuple [(EStr "itime"); (EName "count_t")]); (ETuple [(EStr "wtime"); (EName "count_t")]); (ETuple [(EStr "Itime"); (EName "count_t")]); (ETuple [(EStr "Stime"); (EName "count_t")]); (ETuple [(EStr "steal"); (EName "count_t")]); (ETuple [(EStr "guest"); (EName "count_t")])])];
    (* atop_2_7.py:166-178 *) PClass "CPUNUMA" [(EAttr (EName "ctypes") "Structure")] [
      PIAssign "_fields_" (EList [(ETuple [(EStr "nrnuma"); (EName "count_t")]); (ETuple [(EStr "numa"); (EBin OpMul (EName "CPUPerNUMA") (EName "MAXNUMA"))])]);
      PIAssign "fields_limiters" (EDict [((EStr "numa"), (EStr "nrnuma"))])];
    (* atop_2_7.py:181-181 *) PAssign "FreqCnt" (EAttr (EName "atop_1_26") "FreqCnt");
    (* atop_2_7.py:184-207 *) PClass "PerCPU" [(EAttr (EName "ctypes") "Structure")] [
      PIAssign "_fields_" (EList [(ETuple [(EStr "cpunr"); (EAttr (EName "ctypes") "c_int")]); (ETuple [(EStr "stime"); (EName "count_t")]); (ETuple [(EStr "utime"); (EName "count_t")]); (ETuple [(EStr "ntime"); (EName "count_t")]); (ETuple [(EStr "itime"); (EName "count_t")]); (ETuple [(EStr "wtime"); (EName "count_t")]); (ETuple [(EStr "Itime"); (EName "count_t")]); (ETuple [(EStr "Stime"); (EName "count_t")]); (ETuple [(EStr "steal"); (EName "count_t")]); (ETuple [(EStr "guest"); (EName "count_t")]); (ETuple [(EStr "freqcnt"); (EName "FreqCnt")]); (ETuple [(EStr "instr"); (EName "count_t")]); (ETuple [(EStr "cycle"); (EName "count_t")]); (ETuple [(EStr "cfuture"); (EBin OpMul (EName "count_t") (EInt 6))])])];
    (* atop_2_7.py:210-230 *) PClass "CPUStat" [(EAttr (EName "ctypes") "Structure")] [
      PIAssign "_fields_" (EList [(ETuple [(EStr "nrcpu"); (EName "count_t")]); (ETuple [(EStr "devint"); (EName "count_t")]); (ETuple [(EStr "csw"); (EName "count_t")]); (ETuple [(EStr "nprocs"); (EName "count_t")]); (ETuple [(EStr "lavg1"); (EAttr (EName "ctypes") "c_float")]); (ETuple [(EStr "lavg5"); (EAttr (EName "ctypes") "c_float")]); (ETuple [(EStr "lavg15"); (EAttr (EName "ctypes") "c_float")]); (ETuple [(EStr "cfuture"); (EBin OpMul (EName "count_t") (EInt 4))]); (ETuple [(EStr "all"); (EName "PerCPU")]); (ETuple [(EStr "cpu"); (EBin OpMul (EName "PerCPU") (EName "MAXCPU"))])]);
      PIAssign "fields_limiters" (EDict [((EStr "cpu"), (EStr "nrcpu"))])];
    (* atop_2_7.py:233-252 *) PClass "PerDSK" [(EAttr (EName "ctypes") "Structure")] [
      PIAssign "_fields_" (EList [(ETuple [(EStr "name"); (EBin OpMul (EAttr (EName "ctypes") "c_char") (EName "MAXDKNAM"))]); (ETuple [(EStr "nread"); (EName "count_t")]); (ETuple [(EStr "nrsect"); (EName "count_t")]); (ETuple [(EStr "nwrite"); (EName "count_t")]); (ETuple [(EStr "nwsect"); (EName "count_t")]); (ETuple [(EStr "io_ms"); (EName "count_t")]); (ETuple [(EStr "avque"); (EName "count_t")]); (ETuple [(EStr "ndisc"); (EName "count_t")]); (ETuple [(EStr "ndsect"); (EName "count_t")]); (ETuple [(EStr "cfuture"); (EBin OpMul (EName "count_t") (EInt 2))])])];
    (* atop_2_7.py:255-275 *) PClass "DSKStat" [(EAttr (EName "ctypes") "Structure")] [
      PIAssign "_fields_" (EList [(ETuple [(EStr "ndsk"); (EAttr (EName "ctypes") "c_int")]); (ETuple [(EStr "nmdd"); (EAttr (EName "ctypes") "c_int")]); (ETuple [(EStr "nlvm"); (EAttr (EName "ctypes") "c_int")]); (ETuple [(EStr "dsk"); (EBin OpMul (EName "PerDSK") (EName "MAXDSK"))]); (ETuple [(EStr "mdd"); (EBin OpMul (EName "PerDSK") (EName "MAXMDD"))]); (ETuple [(EStr "lvm"); (EBin OpMul (EName "PerDSK") (EName "MAXLVM"))])]);
      PIAssign "fields_limiters" (EDict [((EStr "dsk"), (EStr "ndsk")); ((EStr "mdd"), (EStr "nmdd")); ((EStr "lvm"), (EStr "nlvm"))])];
    (* atop_2_7.py:278-278 *) PAssign "PerIntf" (EAttr (EName "atop_2_3") "PerIntf");
    (* atop_2_7.py:281-281 *) PAssign "IntfStat" (EAttr (EName "atop_2_3") "IntfStat");
    (* atop_2_7.py:284-284 *) PAssign "PerNFSMount" (EAttr (EName "atop_2_3") "PerNFSMount");
    (* atop_2_7.py:287-287 *) PAssign "Server" (EAttr (EName "atop_2_3") "Server");
    (* atop_2_7.py:290-290 *) PAssign "Client" (EAttr (EName "atop_2_3") "Client");
    (* atop_2_7.py:293-293 *) PAssign "NFSMounts" (EAttr (EName "atop_2_3") "NFSMounts");
    (* atop_2_7.py:296-296 *) PAssign "NFSStat" (EAttr (EName "atop_2_3") "NFSStat");
    (* atop_2_7.py:299-299 *) PAssign "PSI" (EAttr (EName "atop_2_4") "PSI");
    (* atop_2_7.py:302-302 *) PAssign "Pressure" (EAttr (EName "atop_2_4") "Pressure");
    (* atop_2_7.py:305-305 *) PAssign "PerContainer" (EAttr (EName "atop_2_3") "PerContainer");
    (* atop_2_7.py:308-308 *) PAssign "ContStat" (EAttr (EName "atop_2_3") "ContStat");
    (* atop_2_7.py:311-311 *) PAssign "WWWStat" (EAttr (EName "atop_1_26") "WWWStat");
    (* atop_2_7.py:314-314 *) PAssign "PerGPU" (EAttr (EName "atop_2_4") "PerGPU");
    (* atop_2_7.py:317-317 *) PAssign "GPUStat" (EAttr (EName "atop_2_4") "GPUStat");
    (* atop_2_7.py:320-320 *) PAssign "PerIFB" (EAttr (EName "atop_2_4") "PerIFB");
    (* atop_2_7.py:323-323 *) PAssign "IFBStat" (EAttr (EName "atop_2_4") "IFBStat");
    (* atop_2_7.py:326-326 *) PAssign "IPv4Stats" (EAttr (EName "atop_1_26") "IPv4Stats");
    (* atop_2_7.py:329-329 *) PAssign "ICMPv4Stats" (EAttr (EName "atop_1_26") "ICMPv4Stats");
    (* atop_2_7.py:332-332 *) PAssign "UDPv4Stats" (EAttr (EName "atop_1_26") "UDPv4Stats");
    (* atop_2_7.py:335-335 *) PAssign "TCPStats" (EAttr (EName "atop_1_26") "TCPStats");
    (* atop_2_7.py:338-338 *) PAssign "IPv6Stats" (EAttr (EName "atop_1_26") "IPv6Stats");
    (* atop_2_7.py:341-341 *) PAssign "ICMPv6Stats" (EAttr (EName "atop_1_26") "ICMPv6Stats");
    (* atop_2_7.py:344-344 *) PAssign "UDPv6Stats" (EAttr (EName "atop_1_26") "UDPv6Stats");
    (* atop_2_7.py:347-347 *) PAssign "NETStat" (EAttr (EName "atop_1_26") "NETStat");
    (* atop_2_7.py:350-371 *) PClass "SStat" [(EAttr (EName "ctypes") "Structure")] [
      PIAssign "_fields_" (EList [(ETuple [(EStr "cpu"); (EName "CPUStat")]); (ETuple [(EStr "mem"); (EName "MemStat")]); (ETuple [(EStr "net"); (EName "NETStat")]); (ETuple [(EStr "intf"); (EName "IntfStat")]); (ETuple [(EStr "memnuma"); (EName "MemNUMA")]); (ETuple [(EStr "cpunuma"); (EName "CPUNUMA")]); (ETuple [(EStr "dsk"); (EName "DSKStat")]); (ETuple [(EStr "nfs"); (EName "NFSStat")]); (ETuple [(EStr "cfs"); (EName "ContStat")]); (ETuple [(EStr "psi"); (EName "Pressure")]); (ETuple [(EStr "gpu"); (EName "GPUStat")]); (ETuple [(EStr "ifb"); (EName "IFBStat")]); (ETuple [(EStr "www"); (EName "WWWStat")])])];
    (* atop_2_7.py:374-374 *) PAssign "GEN" (EAttr (EName "atop_2_3") "GEN");
    (* atop_2_7.py:377-377 *) PAssign "CPU" (EAttr (EName "atop_2_6") "CPU");
    (* atop_2_7.py:380-380 *) PAssign "DSK" (EAttr (EName "atop_1_26") "DSK");
    (* atop_2_7.py:383-383 *) PAssign "MEM" (EAttr (EName "atop_2_6") "MEM");
    (* atop_2_7.py:386-386 *) PAssign "NET" (EAttr (EName "atop_2_3") "NET");
    (* atop_2_7.py:389-389 *) PAssign "GPU" (EAttr (EName "atop_2_4") "GPU");
    (* atop_2_7.py:392-392 *) PAssign "TStat" (EAttr (EName "atop_2_6") "TStat");
    (* atop_2_7.py:395-403 *) PClass "Header" [(EAttr (EName "atop_2_3") "Header")] [
      PIAssign "supported_version" (EStr "2.7");
      PIAssign "Record" (EName "Record");
      PIAssign "SStat" (EName "SStat");
      PIAssign "TStat" (EName "TStat");
      PIAssign "CStat" ENone;
      PIAssign "CGChainer" ENone]].

(** atoparser/structs/atop_2_8.py *)
Definition pk_structs_atop_2_8 : list ptop :=
  [
    (* atop_2_8.py:16-16 *) PImport "ctypes";
    (* atop_2_8.py:18-18 *) PFrom "atoparser.structs" "atop_1_26" "atop_1_26";
    (* atop_2_8.py:19-19 *) PFrom "atoparser.structs" "atop_2_3" "atop_2_3";
    (* atop_2_8.py:20-20 *) PFrom "atoparser.structs" "atop_2_4" "atop_2_4";
    (* atop_2_8.py:21-21 *) PFrom "atoparser.structs" "atop_2_7" "atop_2_7";
    (* atop_2_8.py:22-22 *) PFrom "atoparser.structs.shared" "HeaderMixin" "HeaderMixin";
    (* atop_2_8.py:23-23 *) PFrom "atoparser.structs.shared" "UTSName" "UTSName";
    (* atop_2_8.py:24-24 *) PFrom "atoparser.structs.shared" "count_t" "count_t";
    (* atop_2_8.py:25-25 *) PFrom "atoparser.structs.shared" "time_t" "time_t";
    (* atop_2_8.py:32-32 *) PAssign "ACCTACTIVE" (EInt 1);
    (* atop_2_8.py:33-33 *) PAssign "IOSTAT" (EInt 4);
    (* atop_2_8.py:34-34 *) PAssign "NETATOP" (EInt 16);
    (* atop_2_8.py:35-35 *) PAssign "NETATOPD" (EInt 32);
    (* atop_2_8.py:36-36 *) PAssign "DOCKSTAT" (EInt 64);
    (* atop_2_8.py:37-37 *) PAssign "GPUSTAT" (EInt 128);
    (* atop_2_8.py:38-38 *) PAssign "CGROUPV2" (EInt 256);
    (* atop_2_8.py:41-41 *) PAssign "PNAMLEN" (EInt 15);
    (* atop_2_8.py:42-42 *) PAssign "CMDLEN" (EInt 255);
    (* atop_2_8.py:43-43 *) PAssign "CGRLEN" (EInt 64);
    (* atop_2_8.py:46-46 *) PAssign "MAXCPU" (EInt 2048);
    (* atop_2_8.py:47-47 *) PAssign "MAXDSK" (EInt 1024);
    (* atop_2_8.py:48-48 *) PAssign "MAXNUMA" (EInt 1024);
    (* atop_2_8.py:49-49 *) PAssign "MAXLVM" (EInt 2048);
    (* atop_2_8.py:50-50 *) PAssign "MAXMDD" (EInt 256);
    (* atop_2_8.py:51-51 *) PAssign "MAXINTF" (EInt 128);
    (* atop_2_8.py:52-52 *) PAssign "MAXCONTAINER" (EInt 128);
    (* atop_2_8.py:53-53 *) PAssign "MAXNFSMOUNT" (EInt 64);
    (* atop_2_8.py:54-54 *) PAssign "MAXIBPORT" (EInt 32);
    (* atop_2_8.py:55-55 *) PAssign "MAXGPU" (EInt 32);
    (* atop_2_8.py:56-56 *) PAssign "MAXGPUBUS" (EInt 12);
    (* atop_2_8.py:57-57 *) PAssign "MAXGPUTYPE" (EInt 12);
    (* atop_2_8.py:58-58 *) PAssign "MAXLLC" (EInt 256);
    (* atop_2_8.py:59-59 *) PAssign "MAXDKNAM" (EInt 32);
    (* atop_2_8.py:60-60 *) PAssign "MAXIBNAME" (EInt 12);
    (* atop_2_8.py:63-94 *) PClass "Record" [(EAttr (EName "ctypes") "Structure")] [
      PIAssign "_fields_" (EList [(ETuple [(EStr "curtime"); (EName "time_t")]); (ETuple [(EStr "flags"); (EAttr (EName "ctypes") "c_ushort")]); (ETuple [(EStr "ncgroups"); (EAttr (EName "ctypes") "c_ushort")]); (ETuple [(EStr "sfuture"); (EBin OpMul (EAttr (EName "ctypes") "c_ushort") (EInt 2))]); (ETuple [(EStr "scomplen"); (EAttr (EName "ctypes") "c_uint")]); (ETuple [(EStr "pcomplen"); (EAttr (EName "ctypes") "c_uint")]); (ETuple [(EStr "interval"); (EAttr (EName "ctypes") "c_uint")]); (ETuple [(EStr "ndeviat"); (EAttr (EName "ctypes") "c_uint")]); (ETuple [(EStr "nactproc"); (EAttr (EName "ctypes") "c_uint")]); (ETuple [(EStr "ntask"); (EAttr (EName "ctypes") "c_uint")]); (ETuple [(EStr "totproc"); (EAttr (EName "ctypes") "c_uint")]); (ETuple [(EStr "totrun"); (EAttr (EName "ctypes") "c_uint")]); (ETuple [(EStr "totslpi"); (EAttr (EName "ctypes") "c_uint")]); (ETuple [(EStr "totslpu"); (EAttr (EName "ctypes") "c_uint")]); (ETuple [(EStr "totzomb"); (EAttr (EName "ctypes") "c_uint")]); (ETuple [(EStr "nexit"); (EAttr (EName "ctypes") "c_uint")]); (ETuple [(EStr "noverflow"); (EAttr (EName "ctypes") "c_uint")]); (ETuple [(EStr "totidle"); (EAttr (EName "ctypes") "c_uint")]); (ETuple [(EStr "ccomplen"); (EAttr (EName "ctypes") "c_uint")]); (ETuple [(EStr "coriglen"); (EAttr (EName "ctypes") "c_uint")]); (ETuple [(EStr "ncgpids"); (EAttr (EName "ctypes") "c_uint")]); (ETuple [(EStr "icomplen"); (EAttr (EName "ctypes") "c_uint")]); (ETuple [(EStr "ifuture"); (EAttr (EName "ctypes") "c_uint")])])];
    (* atop_2_8.py:97-145 *) PClass "MemStat" [(EAttr (EName "ctypes") "Structure")] [
      PIAssign "_fields_" (EList [(ETuple [(EStr "physmem"); (EName "count_t")]); (ETuple [(EStr "freemem"); (EName "count_t")]); (ETuple [(EStr "buffermem"); (EName "count_t")]); (ETuple [(EStr "slabmem"); (EName "count_t")]); (ETuple [(EStr "cachemem"); (EName "count_t")]); (ETuple [(EStr "cachedrt"); (EName "count_t")]); (ETuple [(EStr "totswap"); (EName "count_t")]); (ETuple [(EStr "freeswap"); (EName "count_t")]); (ETuple [(EStr "pgscans"); (EName "count_t")]); (ETuple [(EStr "pgsteal"); (EName "count_t")]); (ETuple [(EStr "allocstall"); (EName "count_t")]); (ETuple [(EStr "swouts"); (EName "count_t")]); (ETuple [(EStr "swins"); (EName "count_t")]); (ETuple [(EStr "tcpsock"); (EName "count_t")]); (ETuple [(EStr "udpsock"); (EName "count_t")]); (ETuple [(EStr "commitlim"); (EName "count_t")]); (ETuple [(EStr "committed"); (EName "count_t")]); (ETuple [(EStr "shmem"); (EName "count_t")]); (ETuple [(EStr "shmrss"); (EName "count_t")]); (ETuple [(EStr "shmswp"); (EName "count_t")]); (ETuple [(EStr "slabreclaim"); (EName "count_t")]); (ETuple [(EStr "tothugepage"); (EName "count_t")]); (ETuple [(EStr "freehugepage"); (EName "count_t")]); (ETuple [(EStr "hugepagesz"); (EName "count_t")]); (ETuple [(EStr "vmwballoon"); (EName "count_t")]); (ETuple [(EStr "zfsarcsize"); (EName "count_t")]); (ETuple [(EStr "swapcached"); (EName "count_t")]); (ETuple [(EStr "ksmsharing"); (EName "count_t")]); (ETuple [(EStr "ksmshared"); (EName "count_t")]); (ETuple [(EStr "zswstored"); (EName "count_t")]); (ETuple [(EStr "zswtotpool"); (EName "count_t")]); (ETuple [(EStr "oomkills"); (EName "count_t")]); (ETuple [(EStr "compactstall"); (EName "count_t")]); (ETuple [(EStr "pgmigrate"); (EName "count_t")]); (ETuple [(EStr "numamigrate"); (EName "count_t")]); (ETuple [(EStr "pgouts"); (EName "count_t")]); (ETuple [(EStr "pgins"); (EName "count_t")]); (ETuple [(EStr "pagetables"); (EName "count_t")]); (ETuple [(EStr "cfuture"); (EBin OpMul (EName "count_t") (EInt 4))])])];
    (* atop_2_8.py:148-169 *) PClass "MemPerNUMA" [(EAttr (EName "ctypes") "Structure")] [
      PIAssign "_fields_" (EList [(ETuple [(EStr "numanr"); (EAttr (EName "ctypes") "c_int")]); (ETuple [(EStr "frag"); (EAttr (EName "ctypes") "c_float")]); (ETuple [(EStr "totmem"); (EName "count_t")]); (ETuple [(EStr "freemem"); (EName "count_t")]); (ETuple [(EStr "filepage"); (EName "count_t")]); (ETuple [(EStr "dirtymem"); (EName "count_t")]); (ETuple [(EStr "slabmem"); (EName "count_t")]); (ETuple [(EStr "slabreclaim"); (EName "count_t")]); (ETuple [(EStr "active"); (EName "count_t")]); (ETuple [(EStr "inactive"); (EName "count_t")]); (ETuple [(EStr "shmem"); (EName "count_t")]); (ETuple [(EStr "tothp"); (EName "count_t")])])];
    (* atop_2_8.py:172-184 *) PClass "MemNUMA" [(EAttr (EName "ctypes") "Structure")] [
      PIAssign "_fields_" (EList [(ETuple [(EStr "nrnuma"); (EName "count_t")]); (ETuple [(EStr "numa"); (EBin OpMul (EName "MemPerNUMA") (EName "MAXNUMA"))])]);
      PIAssign "fields_limiters" (EDict [((EStr "numa"), (EStr "nrnuma"))])];
    (* atop_2_8.py:187-207 *) PClass "CPUPerNUMA" [(EAttr (EName "ctypes") "Structure")] [
      PIAssign "_fields_" (EList [(ETuple [(EStr "numanr"); (EAttr (EName "ctypes") "c_int")]); (ETuple [(EStr "nrcpu"); (EName "count_t")]); (ETuple [(EStr "stime"); (EName "count_t")]); (ETuple [(EStr "utime"); (EName "count_t")]); (ETuple [(EStr "ntime"); (EName "count_t")]); (ETuple [(EStr "itime"); (EName "count_t")]); (ETuple [(EStr "wtime"); (EName "count_t")]); (ETuple [(EStr "Itime"); (EName "count_t")]); (ETuple [(EStr "Stime"); (EName "count_t")]); (ETuple [(EStr "steal"); (EName "count_t")]); (ETuple [(EStr "guest"); (EName "count_t")])])];
    (* atop_2_8.py:210-222 *) PClass "CPUNUMA" [(EAttr (EName "ctypes") "Structure")] [
      PIAssign "_fields_" (EList [(ETuple [(EStr "nrnuma"); (EName "count_t")]); (ETuple [(EStr "numa"); (EBin OpMul (EName "CPUPerNUMA") (EName "MAXNUMA"))])]);
      PIAssign "fields_limiters" (EDict [((EStr "numa"), (EStr "nrnuma"))])];
    (* atop_2_8.py:225-225 *) PAssign "FreqCnt" (EAttr (EName "atop_1_26") "FreqCnt");
    (* atop_2_8.py:228-228 *) PAssign "PerCPU" (EAttr (EName "atop_2_7") "PerCPU");
    (* atop_2_8.py:231-231 *) PAssign "CPUStat" (EAttr (EName "atop_2_7") "CPUStat");
    (* atop_2_8.py:234-254 *) PClass "PerDSK" [(EAttr (EName "ctypes") "Structure")] [
      PIAssign "_fields_" (EList [(ETuple [(EStr "name"); (EBin OpMul (EAttr (EName "ctypes") "c_char") (EName "MAXDKNAM"))]); (ETuple [(EStr "nread"); (EName "count_t")]); (ETuple [(EStr "nrsect"); (EName "count_t")]); (ETuple [(EStr "nwrite"); (EName "count_t")]); (ETuple [(EStr "nwsect"); (EName "count_t")]); (ETuple [(EStr "io_ms"); (EName "count_t")]); (ETuple [(EStr "avque"); (EName "count_t")]); (ETuple [(EStr "ndisc"); (EName "count_t")]); (ETuple [(EStr "ndsect"); (EName "count_t")]); (ETuple [(EStr "inflight"); (EName "count_t")]); (ETuple [(EStr "cfuture"); (EBin OpMul (EName "count_t") (EInt 3))])])];
    (* atop_2_8.py:257-277 *) PClass "DSKStat" [(EAttr (EName "ctypes") "Structure")] [
      PIAssign "_fields_" (EList [(ETuple [(EStr "ndsk"); (EAttr (EName "ctypes") "c_int")]); (ETuple [(EStr "nmdd"); (EAttr (EName "ctypes") "c_int")]); (ETuple [(EStr "nlvm"); (EAttr (EName "ctypes") "c_int")]); (ETuple [(EStr "dsk"); (EBin OpMul (EName "PerDSK") (EName "MAXDSK"))]); (ETuple [(EStr "mdd"); (EBin OpMul (EName "PerDSK") (EName "MAXMDD"))]); (ETuple [(EStr "lvm"); (EBin OpMul (EName "PerDSK") (EName "MAXLVM"))])]);
      PIAssign "fields_limiters" (EDict [((EStr "dsk"), (EStr "ndsk")); ((EStr "mdd"), (EStr "nmdd")); ((EStr "lvm"), (EStr "nlvm"))])];
    (* atop_2_8.py:280-280 *) PAssign "PerIntf" (EAttr (EName "atop_2_3") "PerIntf");
    (* atop_2_8.py:283-283 *) PAssign "IntfStat" (EAttr (EName "atop_2_3") "IntfStat");
    (* atop_2_8.py:286-286 *) PAssign "PerNFSMount" (EAttr (EName "atop_2_3") "PerNFSMount");
    (* atop_2_8.py:289-289 *) PAssign "Server" (EAttr (EName "atop_2_3") "Server");
    (* atop_2_8.py:292-292 *) PAssign "Client" (EAttr (EName "atop_2_3") "Client");
    (* atop_2_8.py:295-295 *) PAssign "NFSMounts" (EAttr (EName "atop_2_3") "NFSMounts");
    (* atop_2_8.py:298-298 *) PAssign "NFSStat" (EAttr (EName "atop_2_3") "NFSStat");
    (* atop_2_8.py:301-301 *) PAssign "PSI" (EAttr (EName "atop_2_4") "PSI");
    (* atop_2_8.py:304-304 *) PAssign "Pressure" (EAttr (EName "atop_2_4") "Pressure");
    (* atop_2_8.py:307-307 *) PAssign "PerContainer" (EAttr (EName "atop_2_3") "PerContainer");
    (* atop_2_8.py:310-310 *) PAssign "ContStat" (EAttr (EName "atop_2_3") "ContStat");
    (* atop_2_8.py:313-313 *) PAssign "WWWStat" (EAttr (EName "atop_1_26") "WWWStat");
    (* atop_2_8.py:316-316 *) PAssign "PerGPU" (EAttr (EName "atop_2_4") "PerGPU");
    (* atop_2_8.py:319-319 *) PAssign "GPUStat" (EAttr (EName "atop_2_4") "GPUStat");
    (* atop_2_8.py:322-322 *) PAssign "PerIFB" (EAttr (EName "atop_2_4") "PerIFB");
    (* atop_2_8.py:325-325 *) PAssign "IFBStat" (EAttr (EName "atop_2_4") "IFBStat");
    (* atop_2_8.py:328-341 *) PClass "PerLLC" [(EAttr (EName "ctypes") "Structure")] [
      PIAssign "_fields_" (EList [(ETuple [(EStr "id"); (EAttr (EName "ctypes") "c_uint8")]); (ETuple [(EStr "occupancy"); (EAttr (EName "ctypes") "c_float")]); (ETuple [(EStr "mbm_local"); (EName "count_t")]); (ETuple [(EStr "mbm_total"); (EName "count_t")])])];
    (* atop_2_8.py:344-356 *) PClass "LLCStat" [(EAttr (EName "ctypes") "Structure")] [
      PIAssign "_fields_" (EList [(ETuple [(EStr "nrllcs"); (EAttr (EName "ctypes") "c_int")]); (ETuple [(EStr "perllc"); (EBin OpMul (EName "PerLLC") (EName "MAXLLC"))])]);
      PIAssign "fields_limiters" (EDict [((EStr "perllc"), (EStr "nrllcs"))])];
    (* atop_2_8.py:359-359 *) PAssign "IPv4Stats" (EAttr (EName "atop_1_26") "IPv4Stats");
    (* atop_2_8.py:362-398 *) PClass "ICMPv4Stats" [(EAttr (EName "ctypes") "Structure")] [
      PIAssign "_fields_" (EList [(ETuple [(EStr "InMsgs"); (EName "count_t")]); (ETuple [(EStr "InErrors"); (EName "count_t")]); (ETuple [(EStr "InCsumErrors"); (EName "count_t")]); (ETuple [(EStr "InDestUnreachs"); (EName "count_t")]); (ETuple [(EStr "InTimeExcds"); (EName "count_t")]); (ETuple [(EStr "InParmProbs"); (EName "count_t")]); (ETuple [(EStr "InSrcQuenchs"); (EName "count_t")]); (ETuple [(EStr "InRedirects"); (EName "count_t")]); (ETuple [(EStr "InEchos"); (EName "count_t")]); (ETuple [(EStr "InEchoReps"); (EName "count_t")]); (ETuple [(EStr "InTimestamps"); (EName "count_t")]); (ETuple [(EStr "InTimestampReps"); (EName "count_t")]); (ETuple [(EStr "InAddrMasks"); (EName "count_t")]); (ETuple [(EStr "InAddrMaskReps"); (EName "count_t")]); (ETuple [(EStr "OutMsgs"); (EName "count_t")]); (ETuple [(EStr "OutErrors"); (EName "count_t")]); (ETuple [(EStr "OutDestUnreachs"); (EName "count_t")]); (ETuple [(EStr "OutTimeExcds"); (EName "count_t")]); (ETuple [(EStr "OutParmProbs"); (EName "count_t")]); (ETuple [(EStr "OutSrcQuenchs"); (EName "count_t")]); (ETuple [(EStr "OutRedirects"); (EName "count_t")]); (ETuple [(EStr "OutEchos"); (EName "count_t")]); (ETuple [(EStr "OutEchoReps"); (EName "count_t")]); (ETuple [(EStr "OutTimestamps"); (EName "count_t")]); (ETuple [(EStr "OutTimestampReps"); (EName "count_t")]); (ETuple [(EStr "OutAddrMasks"); (EName "count_t")]); (ETuple [(EStr "OutAddrMaskReps"); (EName "count_t")])])];
    (* atop_2_8.py:401-401 *) PAssign "UDPv4Stats" (EAttr (EName "atop_1_26") "UDPv4Stats");
    (* atop_2_8.py:404-404 *) PAssign "TCPStats" (EAttr (EName "atop_1_26") "TCPStats");
    (* atop_2_8.py:407-407 *) PAssign "IPv6Stats" (EAttr (EName "atop_1_26") "IPv6Stats");
    (* atop_2_8.py:410-410 *) PAssign "ICMPv6Stats" (EAttr (EName "atop_1_26") "ICMPv6Stats");
    (* atop_2_8.py:413-413 *) PAssign "UDPv6Stats" (EAttr (EName "atop_1_26") "UDPv6Stats");
    (* atop_2_8.py:416-432 *) PClass "NETStat" [(EAttr (EName "ctypes") "Structure")] [
      PIAssign "_fields_" (EList [(ETuple [(EStr "ipv4"); (EName "IPv4Stats")]); (ETuple [(EStr "icmpv4"); (EName "ICMPv4Stats")]); (ETuple [(EStr "udpv4"); (EName "UDPv4Stats")]); (ETuple [(EStr "ipv6"); (EName "IPv6Stats")]); (ETuple [(EStr "icmpv6"); (EName "ICMPv6Stats")]); (ETuple [(EStr "udpv6"); (EName "UDPv6Stats")]); (ETuple [(EStr "tcp"); (EName "TCPStats")])])];
    (* atop_2_8.py:435-457 *) PClass "SStat" [(EAttr (EName "ctypes") "Structure")] [
      PIAssign "_fields_" (EList [(ETuple [(EStr "cpu"); (EName "CPUStat")]); (ETuple [(EStr "mem"); (EName "MemStat")]); (ETuple [(EStr "net"); (EName "NETStat")]); (ETuple [(EStr "intf"); (EName "IntfStat")]); (ETuple [(EStr "memnuma"); (EName "MemNUMA")]); (ETuple [(EStr "cpunuma"); (EName "CPUNUMA")]); (ETuple [(EStr "dsk"); (EName "DSKStat")]); (ETuple [(EStr "nfs"); (EName "NFSStat")]); (ETuple [(EStr "cfs"); (EName "ContStat")]); (ETuple [(EStr "psi"); (EName "Pressure")]); (ETuple [(EStr "gpu"); (EName "GPUStat")]); (ETuple [(EStr "ifb"); (EName "IFBStat")]); (ETuple [(EStr "llc"); (EName "LLCStat")]); (ETuple [(EStr "www"); (EName "WWWStat")])])];
    (* atop_2_8.py:460-496 *) PClass "GEN" [(EAttr (EName "ctypes") "Structure")] [
      PIAssign "_fields_" (EList [(ETuple [(EStr "tgid"); (EAttr (EName "ctypes") "c_int")]); (ETuple [(EStr "pid"); (EAttr (EName "ctypes") "c_int")]); (ETuple [(EStr "ppid"); (EAttr (EName "ctypes") "c_int")]); (ETuple [(EStr "ruid"); (EAttr (EName "ctypes") "c_int")]); (ETuple [(EStr "euid"); (EAttr (EName "ctypes") "c_int")]); (ETuple [(EStr "suid"); (EAttr (EName "ctypes") "c_int")]); (ETuple [(EStr "fsuid"); (EAttr (EName "ctypes") "c_int")]); (ETuple [(EStr "rgid"); (EAttr (EName "ctypes") "c_int")]); (ETuple [(EStr "egid"); (EAttr (EName "ctypes") "c_int")]); (ETuple [(EStr "sgid"); (EAttr (EName "ctypes") "c_int")]); (ETuple [(EStr "fsgid"); (EAttr (EName "ctypes") "c_int")]); (ETuple [(EStr "nthr"); (EAttr (EName "ctypes") "c_int")]); (ETuple [(EStr "name"); (EBin OpMul (EAttr (EName "ctypes") "c_char") (EBin OpAdd (EName "PNAMLEN") (EInt 1)))]); (ETuple [(EStr "isproc"); (EAttr (EName "ctypes") "c_char")]); (ETuple [(EStr "state"); (EAttr (EName "ctypes") "c_char")]); (ETuple [(EStr "excode"); (EAttr (EName "ctypes") "c_int")]); (ETuple [(EStr "btime"); (EName "time_t")]); (ETuple [(EStr "elaps"); (EName "time_t")]); (ETuple [(EStr "cmdline"); (EBin OpMul (EAttr (EName "ctypes") "c_char") (EBin OpAdd (EName "CMDLEN") (EInt 1)))]); (ETuple [(EStr "nthrslpi"); (EAttr (EName "ctypes") "c_int")]); (ETuple [(EStr "nthrslpu"); (EAttr (EName "ctypes") "c_int")]); (ETuple [(EStr "nthrrun"); (EAttr (EName "ctypes") "c_int")]); (ETuple [(EStr "ctid"); (EAttr (EName "ctypes") "c_int")]); (ETuple [(EStr "vpid"); (EAttr (EName "ctypes") "c_int")]); (ETuple [(EStr "wasinactive"); (EAttr (EName "ctypes") "c_int")]); (ETuple [(EStr "container"); (EBin OpMul (EAttr (EName "ctypes") "c_char") (EInt 16))]); (ETuple [(EStr "cgpath"); (EBin OpMul (EAttr (EName "ctypes") "c_char") (EName "CGRLEN"))])])];
    (* atop_2_8.py:499-524 *) PClass "CPU" [(EAttr (EName "ctypes") "Structure")] [
      PIAssign "_fields_" (EList [(ETuple [(EStr "utime"); (EName "count_t")]); (ETuple [(EStr "stime"); (EName "count_t")]); (ETuple [(EStr "nice"); (EAttr (EName "ctypes") "c_int")]); (ETuple [(EStr "prio"); (EAttr (EName "ctypes") "c_int")]); (ETuple [(EStr "rtprio"); (EAttr (EName "ctypes") "c_int")]); (ETuple [(EStr "policy"); (EAttr (EName "ctypes") "c_int")]); (ETuple [(EStr "curcpu"); (EAttr (EName "ctypes") "c_int")]); (ETuple [(EStr "sleepavg"); (EAttr (EName "ctypes") "c_int")]); (ETuple [(EStr "cgcpuweight"); (EAttr (EName "ctypes") "c_int")]); (ETuple [(EStr "cgcpumax"); (EAttr (EName "ctypes") "c_int")]); (ETuple [(EStr "cgcpumaxr"); (EAttr (EName "ctypes") "c_int")]); (ETuple [(EStr "ifuture"); (EBin OpMul (EAttr (EName "ctypes") "c_int") (EInt 3))]); (ETuple [(EStr "wchan"); (EBin OpMul (EAttr (EName "ctypes") "c_char") (EInt 16))]); (ETuple [(EStr "rundelay"); (EName "count_t")]); (ETuple [(EStr "blkdelay"); (EName "count_t")]); (ETuple [(EStr "cfuture"); (EBin OpMul (EName "count_t") (EInt 3))])])];
    (* atop_2_8.py:527-527 *) PAssign "DSK" (EAttr (EName "atop_1_26") "DSK");
    (* atop_2_8.py:530-557 *) PClass "MEM" [(EAttr (EName "ctypes") "Structure")] [
      PIAssign "_fields_" (EList [(ETuple [(EStr "minflt"); (EName "count_t")]); (ETuple [(EStr "majflt"); (EName "count_t")]); (ETuple [(EStr "vexec"); (EName "count_t")]); (ETuple [(EStr "vmem"); (EName "count_t")]); (ETuple [(EStr "rmem"); (EName "count_t")]); (ETuple [(EStr "pmem"); (EName "count_t")]); (ETuple [(EStr "vgrow"); (EName "count_t")]); (ETuple [(EStr "rgrow"); (EName "count_t")]); (ETuple [(EStr "vdata"); (EName "count_t")]); (ETuple [(EStr "vstack"); (EName "count_t")]); (ETuple [(EStr "vlibs"); (EName "count_t")]); (ETuple [(EStr "vswap"); (EName "count_t")]); (ETuple [(EStr "vlock"); (EName "count_t")]); (ETuple [(EStr "cgmemmax"); (EName "count_t")]); (ETuple [(EStr "cgmemmaxr"); (EName "count_t")]); (ETuple [(EStr "cgswpmax"); (EName "count_t")]); (ETuple [(EStr "cgswpmaxr"); (EName "count_t")]); (ETuple [(EStr "cfuture"); (EBin OpMul (EName "count_t") (EInt 3))])])];
    (* atop_2_8.py:560-560 *) PAssign "NET" (EAttr (EName "atop_2_3") "NET");
    (* atop_2_8.py:563-563 *) PAssign "GPU" (EAttr (EName "atop_2_4") "GPU");
    (* atop_2_8.py:566-580 *) PClass "TStat" [(EAttr (EName "ctypes") "Structure")] [
      PIAssign "_fields_" (EList [(ETuple [(EStr "gen"); (EName "GEN")]); (ETuple [(EStr "cpu"); (EName "CPU")]); (ETuple [(EStr "dsk"); (EName "DSK")]); (ETuple [(EStr "mem"); (EName "MEM")]); (ETuple [(EStr "net"); (EName "NET")]); (ETuple [(EStr "gpu"); (EName "GPU")])])];
    (* atop_2_8.py:583-616 *) PClass "Header" [(EAttr (EName "ctypes") "Structure"); (EName "HeaderMixin")] [
      PIAssign "_fields_" (EList [(ETuple [(EStr "magic"); (EAttr (EName "ctypes") "c_uint")]); (ETuple [(EStr "aversion"); (EAttr (EName "ctypes") "c_ushort")]); (ETuple [(EStr "future1"); (EAttr (EName "ctypes") "c_ushort")]); (ETuple [(EStr "future2"); (EAttr (EName "ctypes") "c_ushort")]); (ETuple [(EStr "rawheadlen"); (EAttr (EName "ctypes") "c_ushort")]); (ETuple [(EStr "rawreclen"); (EAttr (EName "ctypes") "c_ushort")]); (ETuple [(EStr "hertz"); (EAttr (EName "ctypes") "c_ushort")]); (ETuple [(EStr "pidwidth"); (EAttr (EName "ctypes") "c_ushort")]); (ETuple [(EStr "sfuture"); (EBin OpMul (EAttr (EName "ctypes") "c_ushort") (EInt 5))]); (ETuple [(EStr "sstatlen"); (EAttr (EName "ctypes") "c_uint")]); (ETuple [(EStr "tstatlen"); (EAttr (EName "ctypes") "c_uint")]); (ETuple [(EStr "utsname"); (EName "UTSName")]); (ETuple [(EStr "cfuture"); (EBin OpMul (EAttr (EName "ctypes") "c_char") (EInt 8))]); (ETuple [(EStr "pagesize"); (EAttr (EName "ctypes") "c_uint")]); (ETuple [(EStr "supportflags"); (EAttr (EName "ctypes") "c_int")]); (ETuple [(EStr "osrel"); (EAttr (EName "ctypes") "c_int")]); (ETuple [(EStr "osvers"); (EAttr (EName "ctypes") "c_int")]); (ETuple [(EStr "ossub"); (EAttr (EName "ctypes") "c_int")]); (ETuple [(EStr "ifuture"); (EBin OpMul (EAttr (EName "ctypes") "c_int") (EInt 6))])]);
      PIAssign "supported_version" (EStr "2.8");
      PIAssign "Record" (EName "Record");
      PIAssign "SStat" (EName "SStat");
      PIAssign "TStat" (EName "TStat");
      PIAssign "CStat" ENone;
      PIAssign "CGChainer" ENone]].

(** atoparser/structs/atop_2_9.py *)
Definition pk_structs_atop_2_9 : list ptop :=
  [
    (* atop_2_9.py:16-16 *) PImport "ctypes";
    (* atop_2_9.py:18-18 *) PFrom "atoparser.structs" "atop_1_26" "atop_1_26";
    (* atop_2_9.py:19-19 *) PFrom "atoparser.structs" "atop_2_3" "atop_2_3";
    (* atop_2_9.py:20-20 *) PFrom "atoparser.structs" "atop_2_4" "atop_2_4";
    (* atop_2_9.py:21-21 *) PFrom "atoparser.structs" "atop_2_7" "atop_2_7";
    (* atop_2_9.py:22-22 *) PFrom "atoparser.structs" "atop_2_8" "atop_2_8";
    (* atop_2_9.py:23-23 *) PFrom "atoparser.structs.shared" "count_t" "count_t";
    (* atop_2_9.py:30-30 *) PAssign "ACCTACTIVE" (EInt 1);
    (* atop_2_9.py:31-31 *) PAssign "IOSTAT" (EInt 4);
    (* atop_2_9.py:32-32 *) PAssign "NETATOP" (EInt 16);
    (* atop_2_9.py:33-33 *) PAssign "NETATOPD" (EInt 32);
    (* atop_2_9.py:34-34 *) PAssign "DOCKSTAT" (EInt 64);
    (* atop_2_9.py:35-35 *) PAssign "GPUSTAT" (EInt 128);
    (* atop_2_9.py:36-36 *) PAssign "CGROUPV2" (EInt 256);
    (* atop_2_9.py:39-39 *) PAssign "PNAMLEN" (EInt 15);
    (* atop_2_9.py:40-40 *) PAssign "CMDLEN" (EInt 255);
    (* atop_2_9.py:41-41 *) PAssign "CGRLEN" (EInt 64);
    (* atop_2_9.py:44-44 *) PAssign "MAXCPU" (EInt 2048);
    (* atop_2_9.py:45-45 *) PAssign "MAXDSK" (EInt 1024);
    (* atop_2_9.py:46-46 *) PAssign "MAXNUMA" (EInt 1024);
    (* atop_2_9.py:47-47 *) PAssign "MAXLVM" (EInt 2048);
    (* atop_2_9.py:48-48 *) PAssign "MAXMDD" (EInt 256);
    (* atop_2_9.py:49-49 *) PAssign "MAXINTF" (EInt 128);
    (* atop_2_9.py:50-50 *) PAssign "MAXCONTAINER" (EInt 128);
    (* atop_2_9.py:51-51 *) PAssign "MAXNFSMOUNT" (EInt 64);
    (* atop_2_9.py:52-52 *) PAssign "MAXIBPORT" (EInt 32);
    (* atop_2_9.py:53-53 *) PAssign "MAXGPU" (EInt 32);
    (* atop_2_9.py:54-54 *) PAssign "MAXGPUBUS" (EInt 12);
    (* atop_2_9.py:55-55 *) PAssign "MAXGPUTYPE" (EInt 12);
    (* atop_2_9.py:56-56 *) PAssign "MAXLLC" (EInt 256);
    (* atop_2_9.py:57-57 *) PAssign "MAXDKNAM" (EInt 32);
    (* atop_2_9.py:58-58 *) PAssign "MAXIBNAME" (EInt 12);
    (* atop_2_9.py:61-61 *) PAssign "Record" (EAttr (EName "atop_2_8") "Record");
    (* atop_2_9.py:64-64 *) PAssign "MemStat" (EAttr (EName "atop_2_8") "MemStat");
    (* atop_2_9.py:67-67 *) PAssign "MemPerNUMA" (EAttr (EName "atop_2_8") "MemPerNUMA");
    (* atop_2_9.py:70-70 *) PAssign "MemNUMA" (EAttr (EName "atop_2_8") "MemNUMA");
    (* atop_2_9.py:73-73 *) PAssign "CPUPerNUMA" (EAttr (EName "atop_2_8") "CPUPerNUMA");
    (* atop_2_9.py:76-76 *) PAssign "CPUNUMA" (EAttr (EName "atop_2_8") "CPUNUMA");
    (* atop_2_9.py:79-79 *) PAssign "FreqCnt" (EAttr (EName "atop_1_26") "FreqCnt");
    (* atop_2_9.py:82-82 *) PAssign "PerCPU" (EAttr (EName "atop_2_7") "PerCPU");
    (* atop_2_9.py:85-85 *) PAssign "CPUStat" (EAttr (EName "atop_2_7") "CPUStat");
    (* atop_2_9.py:88-88 *) PAssign "PerDSK" (EAttr (EName "atop_2_8") "PerDSK");
    (* atop_2_9.py:91-91 *) PAssign "DSKStat" (EAttr (EName "atop_2_8") "DSKStat");
    (* atop_2_9.py:94-94 *) PAssign "PerIntf" (EAttr (EName "atop_2_3") "PerIntf");
    (* atop_2_9.py:97-97 *) PAssign "IntfStat" (EAttr (EName "atop_2_3") "IntfStat");
    (* atop_2_9.py:100-100 *) PAssign "PerNFSMount" (EAttr (EName "atop_2_3") "PerNFSMount");
    (* atop_2_9.py:103-103 *) PAssign "Server" (EAttr (EName "atop_2_3") "Server");
    (* atop_2_9.py:106-106 *) PAssign "Client" (EAttr (EName "atop_2_3") "Client");
    (* atop_2_9.py:109-109 *) PAssign "NFSMounts" (EAttr (EName "atop_2_3") "NFSMounts");
    (* atop_2_9.py:112-112 *) PAssign "NFSStat" (EAttr (EName "atop_2_3") "NFSStat");
    (* atop_2_9.py:115-115 *) PAssign "PSI" (EAttr (EName "atop_2_4") "PSI");
    (* atop_2_9.py:118-118 *) PAssign "Pressure" (EAttr (EName "atop_2_4") "Pressure");
    (* atop_2_9.py:121-121 *) PAssign "PerContainer" (EAttr (EName "atop_2_3") "PerContainer");
    (* atop_2_9.py:124-124 *) PAssign "ContStat" (EAttr (EName "atop_2_3") "ContStat");
    (* atop_2_9.py:127-127 *) PAssign "WWWStat" (EAttr (EName "atop_1_26") "WWWStat");
    (* atop_2_9.py:130-130 *) PAssign "PerGPU" (EAttr (EName "atop_2_4") "PerGPU");
    (* atop_2_9.py:133-133 *) PAssign "GPUStat" (EAttr (EName "atop_2_4") "GPUStat");
    (* atop_2_9.py:136-136 *) PAssign "PerIFB" (EAttr (EName "atop_2_4") "PerIFB");
    (* atop_2_9.py:139-139 *) PAssign "IFBStat" (EAttr (EName "atop_2_4") "IFBStat");
    (* atop_2_9.py:142-142 *) PAssign "PerLLC" (EAttr (EName "atop_2_8") "PerLLC");
    (* atop_2_9.py:145-145 *) PAssign "LLCStat" (EAttr (EName "atop_2_8") "LLCStat");
    (* atop_2_9.py:148-148 *) PAssign "IPv4Stats" (EAttr (EName "atop_1_26") "IPv4Stats");
    (* atop_2_9.py:151-151 *) PAssign "ICMPv4Stats" (EAttr (EName "atop_2_8") "ICMPv4Stats");
    (* atop_2_9.py:154-154 *) PAssign "UDPv4Stats" (EAttr (EName "atop_1_26") "UDPv4Stats");
    (* atop_2_9.py:157-157 *) PAssign "TCPStats" (EAttr (EName "atop_1_26") "TCPStats");
    (* atop_2_9.py:160-160 *) PAssign "IPv6Stats" (EAttr (EName "atop_1_26") "IPv6Stats");
    (* atop_2_9.py:163-163 *) PAssign "ICMPv6Stats" (EAttr (EName "atop_1_26") "ICMPv6Stats");
    (* atop_2_9.py:166-166 *) PAssign "UDPv6Stats" (EAttr (EName "atop_1_26") "UDPv6Stats");
    (* atop_2_9.py:169-169 *) PAssign "NETStat" (EAttr (EName "atop_1_26") "NETStat");
    (* atop_2_9.py:172-172 *) PAssign "SStat" (EAttr (EName "atop_2_8") "SStat");
    (* atop_2_9.py:175-175 *) PAssign "GEN" (EAttr (EName "atop_2_8") "GEN");
    (* atop_2_9.py:178-205 *) PClass "CPU" [(EAttr (EName "ctypes") "Structure")] [
      PIAssign "_fields_" (EList [(ETuple [(EStr "utime"); (EName "count_t")]); (ETuple [(EStr "stime"); (EName "count_t")]); (ETuple [(EStr "nice"); (EAttr (EName "ctypes") "c_int")]); (ETuple [(EStr "prio"); (EAttr (EName "ctypes") "c_int")]); (ETuple [(EStr "rtprio"); (EAttr (EName "ctypes") "c_int")]); (ETuple [(EStr "policy"); (EAttr (EName "ctypes") "c_int")]); (ETuple [(EStr "curcpu"); (EAttr (EName "ctypes") "c_int")]); (ETuple [(EStr "sleepavg"); (EAttr (EName "ctypes") "c_int")]); (ETuple [(EStr "cgcpuweight"); (EAttr (EName "ctypes") "c_int")]); (ETuple [(EStr "cgcpumax"); (EAttr (EName "ctypes") "c_int")]); (ETuple [(EStr "cgcpumaxr"); (EAttr (EName "ctypes") "c_int")]); (ETuple [(EStr "ifuture"); (EBin OpMul (EAttr (EName "ctypes") "c_int") (EInt 3))]); (ETuple [(EStr "wchan"); (EBin OpMul (EAttr (EName "ctypes") "c_char") (EInt 16))]); (ETuple [(EStr "rundelay"); (EName "count_t")]); (ETuple [(EStr "blkdelay"); (EName "count_t")]); (ETuple [(EStr "nvcsw"); (EName "count_t")]); (ETuple [(EStr "nivcsw"); (EName "count_t")]); (ETuple [(EStr "cfuture"); (EBin OpMul (EName "count_t") (EInt 1))])])];
    (* atop_2_9.py:208-208 *) PAssign "DSK" (EAttr (EName "atop_1_26") "DSK");
    (* atop_2_9.py:211-211 *) PAssign "MEM" (EAttr (EName "atop_2_8") "MEM");
    (* atop_2_9.py:214-214 *) PAssign "NET" (EAttr (EName "atop_2_3") "NET");
    (* atop_2_9.py:217-217 *) PAssign "GPU" (EAttr (EName "atop_2_4") "GPU");
    (* atop_2_9.py:220-234 *) PClass "TStat" [(EAttr (EName "ctypes") "Structure")] [
      PIAssign "_fields_" (EList [(ETuple [(EStr "gen"); (EName "GEN")]); (ETuple [(EStr "cpu"); (EName "CPU")]); (ETuple [(EStr "dsk"); (EName "DSK")]); (ETuple [(EStr "mem"); (EName "MEM")]); (ETuple [(EStr "net"); (EName "NET")]); (ETuple [(EStr "gpu"); (EName "GPU")])])];
    (* atop_2_9.py:237-245 *) PClass "Header" [(EAttr (EName "atop_2_8") "Header")] [
      PIAssign "supported_version" (EStr "2.9");
      PIAssign "Record" (EName "Record");
      PIAssign "SStat" (EName "SStat");
      PIAssign "TStat" (EName "TStat");
      PIAssign "CStat" ENone;
      PIAssign "CGChainer" ENone]].

(** atoparser/structs/atop_2_10.py *)
Definition pk_structs_atop_2_10 : list ptop :=
  [
    (* atop_2_10.py:16-16 *) PImport "ctypes";
    (* atop_2_10.py:18-18 *) PFrom "atoparser.structs" "atop_1_26" "atop_1_26";
    (* atop_2_10.py:19-19 *) PFrom "atoparser.structs" "atop_2_3" "atop_2_3";
    (* atop_2_10.py:20-20 *) PFrom "atoparser.structs" "atop_2_4" "atop_2_4";
    (* atop_2_10.py:21-21 *) PFrom "atoparser.structs" "atop_2_7" "atop_2_7";
    (* atop_2_10.py:22-22 *) PFrom "atoparser.structs" "atop_2_8" "atop_2_8";
    (* atop_2_10.py:23-23 *) PFrom "atoparser.structs.shared" "count_t" "count_t";
    (* atop_2_10.py:24-24 *) PFrom "atoparser.structs.shared" "time_t" "time_t";
    (* atop_2_10.py:31-31 *) PAssign "ACCTACTIVE" (EInt 1);
    (* atop_2_10.py:32-32 *) PAssign "IOSTAT" (EInt 4);
    (* atop_2_10.py:33-33 *) PAssign "NETATOP" (EInt 16);
    (* atop_2_10.py:34-34 *) PAssign "NETATOPD" (EInt 32);
    (* atop_2_10.py:35-35 *) PAssign "CONTAINERSTAT" (EInt 64);
    (* atop_2_10.py:36-36 *) PAssign "GPUSTAT" (EInt 128);
    (* atop_2_10.py:37-37 *) PAssign "CGROUPV2" (EInt 256);
    (* atop_2_10.py:38-38 *) PAssign "NETATOPBPF" (EInt 4096);
    (* atop_2_10.py:41-41 *) PAssign "PNAMLEN" (EInt 15);
    (* atop_2_10.py:42-42 *) PAssign "CMDLEN" (EInt 255);
    (* atop_2_10.py:43-43 *) PAssign "CGRLEN" (EInt 64);
    (* atop_2_10.py:44-44 *) PAssign "UTSLEN" (EInt 15);
    (* atop_2_10.py:47-47 *) PAssign "MAXCPU" (EInt 2048);
    (* atop_2_10.py:48-48 *) PAssign "MAXDSK" (EInt 1024);
    (* atop_2_10.py:49-49 *) PAssign "MAXNUMA" (EInt 1024);
    (* atop_2_10.py:50-50 *) PAssign "MAXLVM" (EInt 2048);
    (* atop_2_10.py:51-51 *) PAssign "MAXMDD" (EInt 256);
    (* atop_2_10.py:52-52 *) PAssign "MAXINTF" (EInt 128);
    (* atop_2_10.py:53-53 *) PAssign "MAXCONTAINER" (EInt 128);
    (* atop_2_10.py:54-54 *) PAssign "MAXNFSMOUNT" (EInt 64);
    (* atop_2_10.py:55-55 *) PAssign "MAXIBPORT" (EInt 32);
    (* atop_2_10.py:56-56 *) PAssign "MAXGPU" (EInt 32);
    (* atop_2_10.py:57-57 *) PAssign "MAXGPUBUS" (EInt 12);
    (* atop_2_10.py:58-58 *) PAssign "MAXGPUTYPE" (EInt 12);
    (* atop_2_10.py:59-59 *) PAssign "MAXLLC" (EInt 256);
    (* atop_2_10.py:60-60 *) PAssign "MAXDKNAM" (EInt 32);
    (* atop_2_10.py:61-61 *) PAssign "MAXIBNAME" (EInt 12);
    (* atop_2_10.py:64-90 *) PClass "Record" [(EAttr (EName "ctypes") "Structure")] [
      PIAssign "_fields_" (EList [(ETuple [(EStr "curtime"); (EName "time_t")]); (ETuple [(EStr "flags"); (EAttr (EName "ctypes") "c_ushort")]); (ETuple [(EStr "sfuture"); (EBin OpMul (EAttr (EName "ctypes") "c_ushort") (EInt 3))]); (ETuple [(EStr "scomplen"); (EAttr (EName "ctypes") "c_uint")]); (ETuple [(EStr "pcomplen"); (EAttr (EName "ctypes") "c_uint")]); (ETuple [(EStr "interval"); (EAttr (EName "ctypes") "c_uint")]); (ETuple [(EStr "ndeviat"); (EAttr (EName "ctypes") "c_uint")]); (ETuple [(EStr "nactproc"); (EAttr (EName "ctypes") "c_uint")]); (ETuple [(EStr "ntask"); (EAttr (EName "ctypes") "c_uint")]); (ETuple [(EStr "totproc"); (EAttr (EName "ctypes") "c_uint")]); (ETuple [(EStr "totrun"); (EAttr (EName "ctypes") "c_uint")]); (ETuple [(EStr "totslpi"); (EAttr (EName "ctypes") "c_uint")]); (ETuple [(EStr "totslpu"); (EAttr (EName "ctypes") "c_uint")]); (ETuple [(EStr "totzomb"); (EAttr (EName "ctypes") "c_uint")]); (ETuple [(EStr "nexit"); (EAttr (EName "ctypes") "c_uint")]); (ETuple [(EStr "noverflow"); (EAttr (EName "ctypes") "c_uint")]); (ETuple [(EStr "totidle"); (EAttr (EName "ctypes") "c_uint")]); (ETuple [(EStr "ifuture"); (EBin OpMul (EAttr (EName "ctypes") "c_uint") (EInt 5))])])];
    (* atop_2_10.py:93-148 *) PClass "MemStat" [(EAttr (EName "ctypes") "Structure")] [
      PIAssign "_fields_" (EList [(ETuple [(EStr "physmem"); (EName "count_t")]); (ETuple [(EStr "freemem"); (EName "count_t")]); (ETuple [(EStr "buffermem"); (EName "count_t")]); (ETuple [(EStr "slabmem"); (EName "count_t")]); (ETuple [(EStr "cachemem"); (EName "count_t")]); (ETuple [(EStr "cachedrt"); (EName "count_t")]); (ETuple [(EStr "totswap"); (EName "count_t")]); (ETuple [(EStr "freeswap"); (EName "count_t")]); (ETuple [(EStr "pgscans"); (EName "count_t")]); (ETuple [(EStr "pgsteal"); (EName "count_t")]); (ETuple [(EStr "allocstall"); (EName "count_t")]); (ETuple [(EStr "swouts"); (EName "count_t")]); (ETuple [(EStr "swins"); (EName "count_t")]); (ETuple [(EStr "tcpsock"); (EName "count_t")]); (ETuple [(EStr "udpsock"); (EName "count_t")]); (ETuple [(EStr "commitlim"); (EName "count_t")]); (ETuple [(EStr "committed"); (EName "count_t")]); (ETuple [(EStr "shmem"); (EName "count_t")]); (ETuple [(EStr "shmrss"); (EName "count_t")]); (ETuple [(EStr "shmswp"); (EName "count_t")]); (ETuple [(EStr "slabreclaim"); (EName "count_t")]); (ETuple [(EStr "stothugepage"); (EName "count_t")]); (ETuple [(EStr "sfreehugepage"); (EName "count_t")]); (ETuple [(EStr "shugepagesz"); (EName "count_t")]); (ETuple [(EStr "vmwballoon"); (EName "count_t")]); (ETuple [(EStr "zfsarcsize"); (EName "count_t")]); (ETuple [(EStr "swapcached"); (EName "count_t")]); (ETuple [(EStr "ksmsharing"); (EName "count_t")]); (ETuple [(EStr "ksmshared"); (EName "count_t")]); (ETuple [(EStr "zswapped"); (EName "count_t")]); (ETuple [(EStr "zswap"); (EName "count_t")]); (ETuple [(EStr "oomkills"); (EName "count_t")]); (ETuple [(EStr "compactstall"); (EName "count_t")]); (ETuple [(EStr "pgmigrate"); (EName "count_t")]); (ETuple [(EStr "numamigrate"); (EName "count_t")]); (ETuple [(EStr "pgouts"); (EName "count_t")]); (ETuple [(EStr "pgins"); (EName "count_t")]); (ETuple [(EStr "pagetables"); (EName "count_t")]); (ETuple [(EStr "zswouts"); (EName "count_t")]); (ETuple [(EStr "zswins"); (EName "count_t")]); (ETuple [(EStr "ltothugepage"); (EName "count_t")]); (ETuple [(EStr "lfreehugepage"); (EName "count_t")]); (ETuple [(EStr "lhugepagesz"); (EName "count_t")]); (ETuple [(EStr "availablemem"); (EName "count_t")]); (ETuple [(EStr "anonhugepage"); (EName "count_t")]); (ETuple [(EStr "cfuture"); (EBin OpMul (EName "count_t") (EInt 4))])])];
    (* atop_2_10.py:151-173 *) PClass "MemPerNUMA" [(EAttr (EName "ctypes") "Structure")] [
      PIAssign "_fields_" (EList [(ETuple [(EStr "numanr"); (EAttr (EName "ctypes") "c_int")]); (ETuple [(EStr "frag"); (EAttr (EName "ctypes") "c_float")]); (ETuple [(EStr "totmem"); (EName "count_t")]); (ETuple [(EStr "freemem"); (EName "count_t")]); (ETuple [(EStr "filepage"); (EName "count_t")]); (ETuple [(EStr "dirtymem"); (EName "count_t")]); (ETuple [(EStr "slabmem"); (EName "count_t")]); (ETuple [(EStr "slabreclaim"); (EName "count_t")]); (ETuple [(EStr "active"); (EName "count_t")]); (ETuple [(EStr "inactive"); (EName "count_t")]); (ETuple [(EStr "shmem"); (EName "count_t")]); (ETuple [(EStr "tothp"); (EName "count_t")]); (ETuple [(EStr "freehp"); (EName "count_t")])])];
    (* atop_2_10.py:176-188 *) PClass "MemNUMA" [(EAttr (EName "ctypes") "Structure")] [
      PIAssign "_fields_" (EList [(ETuple [(EStr "nrnuma"); (EName "count_t")]); (ETuple [(EStr "numa"); (EBin OpMul (EName "MemPerNUMA") (EName "MAXNUMA"))])]);
      PIAssign "fields_limiters" (EDict [((EStr "numa"), (EStr "nrnuma"))])];
    (* atop_2_10.py:191-191 *) PAssign "CPUPerNUMA" (EAttr (EName "atop_2_8") "CPUPerNUMA");
    (* atop_2_10.py:194-194 *) PAssign "CPUNUMA" (EAttr (EName "atop_2_8") "CPUNUMA");
    (* atop_2_10.py:197-197 *) PAssign "FreqCnt" (EAttr (EName "atop_1_26") "FreqCnt");
    (* atop_2_10.py:200-200 *) PAssign "PerCPU" (EAttr (EName "atop_2_7") "PerCPU");
    (* atop_2_10.py:203-203 *) PAssign "CPUStat" (EAttr (EName "atop_2_7") "CPUStat");
    (* atop_2_10.py:206-206 *) PAssign "PerDSK" (EAttr (EName "atop_2_8") "PerDSK");
    (* atop_2_10.py:209-209 *) PAssign "DSKStat" (EAttr (EName "atop_2_8") "DSKStat");
    (* atop_2_10.py:212-212 *) PAssign "PerIntf" (EAttr (EName "atop_2_3") "PerIntf");
    (* atop_2_10.py:215-215 *) PAssign "IntfStat" (EAttr (EName "atop_2_3") "IntfStat");
    (* atop_2_10.py:218-218 *) PAssign "PerNFSMount" (EAttr (EName "atop_2_3") "PerNFSMount");
    (* atop_2_10.py:221-221 *) PAssign "Server" (EAttr (EName "atop_2_3") "Server");
    (* atop_2_10.py:224-224 *) PAssign "Client" (EAttr (EName "atop_2_3") "Client");
    (* atop_2_10.py:227-227 *) PAssign "NFSMounts" (EAttr (EName "atop_2_3") "NFSMounts");
    (* atop_2_10.py:230-230 *) PAssign "NFSStat" (EAttr (EName "atop_2_3") "NFSStat");
    (* atop_2_10.py:233-233 *) PAssign "PSI" (EAttr (EName "atop_2_4") "PSI");
    (* atop_2_10.py:236-236 *) PAssign "Pressure" (EAttr (EName "atop_2_4") "Pressure");
    (* atop_2_10.py:239-239 *) PAssign "PerContainer" (EAttr (EName "atop_2_3") "PerContainer");
    (* atop_2_10.py:242-242 *) PAssign "ContStat" (EAttr (EName "atop_2_3") "ContStat");
    (* atop_2_10.py:245-245 *) PAssign "WWWStat" (EAttr (EName "atop_1_26") "WWWStat");
    (* atop_2_10.py:248-248 *) PAssign "PerGPU" (EAttr (EName "atop_2_4") "PerGPU");
    (* atop_2_10.py:251-251 *) PAssign "GPUStat" (EAttr (EName "atop_2_4") "GPUStat");
    (* atop_2_10.py:254-254 *) PAssign "PerIFB" (EAttr (EName "atop_2_4") "PerIFB");
    (* atop_2_10.py:257-257 *) PAssign "IFBStat" (EAttr (EName "atop_2_4") "IFBStat");
    (* atop_2_10.py:260-260 *) PAssign "PerLLC" (EAttr (EName "atop_2_8") "PerLLC");
    (* atop_2_10.py:263-263 *) PAssign "LLCStat" (EAttr (EName "atop_2_8") "LLCStat");
    (* atop_2_10.py:266-266 *) PAssign "IPv4Stats" (EAttr (EName "atop_1_26") "IPv4Stats");
    (* atop_2_10.py:269-269 *) PAssign "ICMPv4Stats" (EAttr (EName "atop_2_8") "ICMPv4Stats");
    (* atop_2_10.py:272-272 *) PAssign "UDPv4Stats" (EAttr (EName "atop_1_26") "UDPv4Stats");
    (* atop_2_10.py:275-299 *) PClass "TCPStats" [(EAttr (EName "ctypes") "Structure")] [
      PIAssign "_fields_" (EList [(ETuple [(EStr "RtoAlgorithm"); (EName "count_t")]); (ETuple [(EStr "RtoMin"); (EName "count_t")]); (ETuple [(EStr "RtoMax"); (EName "count_t")]); (ETuple [(EStr "MaxConn"); (EName "count_t")]); (ETuple [(EStr "ActiveOpens"); (EName "count_t")]); (ETuple [(EStr "PassiveOpens"); (EName "count_t")]); (ETuple [(EStr "AttemptFails"); (EName "count_t")]); (ETuple [(EStr "EstabResets"); (EName "count_t")]); (ETuple [(EStr "CurrEstab"); (EName "count_t")]); (ETuple [(EStr "InSegs"); (EName "count_t")]); (ETuple [(EStr "OutSegs"); (EName "count_t")]); (ETuple [(EStr "RetransSegs"); (EName "count_t")]); (ETuple [(EStr "InErrs"); (EName "count_t")]); (ETuple [(EStr "OutRsts"); (EName "count_t")]); (ETuple [(EStr "InCsumErrors"); (EName "count_t")])])];
    (* atop_2_10.py:302-302 *) PAssign "IPv6Stats" (EAttr (EName "atop_1_26") "IPv6Stats");
    (* atop_2_10.py:305-305 *) PAssign "ICMPv6Stats" (EAttr (EName "atop_1_26") "ICMPv6Stats");
    (* atop_2_10.py:308-308 *) PAssign "UDPv6Stats" (EAttr (EName "atop_1_26") "UDPv6Stats");
    (* atop_2_10.py:311-327 *) PClass "NETStat" [(EAttr (EName "ctypes") "Structure")] [
      PIAssign "_fields_" (EList [(ETuple [(EStr "ipv4"); (EName "IPv4Stats")]); (ETuple [(EStr "icmpv4"); (EName "ICMPv4Stats")]); (ETuple [(EStr "udpv4"); (EName "UDPv4Stats")]); (ETuple [(EStr "ipv6"); (EName "IPv6Stats")]); (ETuple [(EStr "icmpv6"); (EName "ICMPv6Stats")]); (ETuple [(EStr "udpv6"); (EName "UDPv6Stats")]); (ETuple [(EStr "tcp"); (EName "TCPStats")])])];
    (* atop_2_10.py:330-352 *) PClass "SStat" [(EAttr (EName "ctypes") "Structure")] [
      PIAssign "_fields_" (EList [(ETuple [(EStr "cpu"); (EName "CPUStat")]); (ETuple [(EStr "mem"); (EName "MemStat")]); (ETuple [(EStr "net"); (EName "NETStat")]); (ETuple [(EStr "intf"); (EName "IntfStat")]); (ETuple [(EStr "memnuma"); (EName "MemNUMA")]); (ETuple [(EStr "cpunuma"); (EName "CPUNUMA")]); (ETuple [(EStr "dsk"); (EName "DSKStat")]); (ETuple [(EStr "nfs"); (EName "NFSStat")]); (ETuple [(EStr "cfs"); (EName "ContStat")]); (ETuple [(EStr "psi"); (EName "Pressure")]); (ETuple [(EStr "gpu"); (EName "GPUStat")]); (ETuple [(EStr "ifb"); (EName "IFBStat")]); (ETuple [(EStr "llc"); (EName "LLCStat")]); (ETuple [(EStr "www"); (EName "WWWStat")])])];
    (* atop_2_10.py:355-392 *) PClass "GEN" [(EAttr (EName "ctypes") "Structure")] [
      PIAssign "_fields_" (EList [(ETuple [(EStr "tgid"); (EAttr (EName "ctypes") "c_int")]); (ETuple [(EStr "pid"); (EAttr (EName "ctypes") "c_int")]); (ETuple [(EStr "ppid"); (EAttr (EName "ctypes") "c_int")]); (ETuple [(EStr "ruid"); (EAttr (EName "ctypes") "c_int")]); (ETuple [(EStr "euid"); (EAttr (EName "ctypes") "c_int")]); (ETuple [(EStr "suid"); (EAttr (EName "ctypes") "c_int")]); (ETuple [(EStr "fsuid"); (EAttr (EName "ctypes") "c_int")]); (ETuple [(EStr "rgid"); (EAttr (EName "ctypes") "c_int")]); (ETuple [(EStr "egid"); (EAttr (EName "ctypes") "c_int")]); (ETuple [(EStr "sgid"); (EAttr (EName "ctypes") "c_int")]); (ETuple [(EStr "fsgid"); (EAttr (EName "ctypes") "c_int")]); (ETuple [(EStr "nthr"); (EAttr (EName "ctypes") "c_int")]); (ETuple [(EStr "name"); (EBin OpMul (EAttr (EName "ctypes") "c_char") (EBin OpAdd (EName "PNAMLEN") (EInt 1)))]); (ETuple [(EStr "isproc"); (EAttr (EName "ctypes") "c_char")]); (ETuple [(EStr "state"); (EAttr (EName "ctypes") "c_char")]); (ETuple [(EStr "excode"); (EAttr (EName "ctypes") "c_int")]); (ETuple [(EStr "btime"); (EName "time_t")]); (ETuple [(EStr "elaps"); (EName "time_t")]); (ETuple [(EStr "cmdline"); (EBin OpMul (EAttr (EName "ctypes") "c_char") (EBin OpAdd (EName "CMDLEN") (EInt 1)))]); (ETuple [(EStr "nthrslpi"); (EAttr (EName "ctypes") "c_int")]); (ETuple [(EStr "nthrslpu"); (EAttr (EName "ctypes") "c_int")]); (ETuple [(EStr "nthrrun"); (EAttr (EName "ctypes") "c_int")]); (ETuple [(EStr "nthridle"); (EAttr (EName "ctypes") "c_int")]); (ETuple [(EStr "ctid"); (EAttr (EName "ctypes") "c_int")]); (ETuple [(EStr "vpid"); (EAttr (EName "ctypes") "c_int")]); (ETuple [(EStr "wasinactive"); (EAttr (EName "ctypes") "c_int")]); (ETuple [(EStr "utsname"); (EBin OpMul (EAttr (EName "ctypes") "c_char") (EBin OpAdd (EName "UTSLEN") (EInt 1)))]); (ETuple [(EStr "cgpath"); (EBin OpMul (EAttr (EName "ctypes") "c_char") (EName "CGRLEN"))])])];
    (* atop_2_10.py:395-422 *) PClass "CPU" [(EAttr (EName "ctypes") "Structure")] [
      PIAssign "_fields_" (EList [(ETuple [(EStr "utime"); (EName "count_t")]); (ETuple [(EStr "stime"); (EName "count_t")]); (ETuple [(EStr "nice"); (EAttr (EName "ctypes") "c_int")]); (ETuple [(EStr "prio"); (EAttr (EName "ctypes") "c_int")]); (ETuple [(EStr "rtprio"); (EAttr (EName "ctypes") "c_int")]); (ETuple [(EStr "policy"); (EAttr (EName "ctypes") "c_int")]); (ETuple [(EStr "curcpu"); (EAttr (EName "ctypes") "c_int")]); (ETuple [(EStr "sleepavg"); (EAttr (EName "ctypes") "c_int")]); (ETuple [(EStr "cgcpuweight"); (EAttr (EName "ctypes") "c_int")]); (ETuple [(EStr "cgcpumax"); (EAttr (EName "ctypes") "c_int")]); (ETuple [(EStr "cgcpumaxr"); (EAttr (EName "ctypes") "c_int")]); (ETuple [(EStr "ifuture"); (EBin OpMul (EAttr (EName "ctypes") "c_int") (EInt 3))]); (ETuple [(EStr "wchan"); (EBin OpMul (EAttr (EName "ctypes") "c_char") (EInt 16))]); (ETuple [(EStr "rundelay"); (EName "count_t")]); (ETuple [(EStr "blkdelay"); (EName "count_t")]); (ETuple [(EStr "nvcsw"); (EName "count_t")]); (ETuple [(EStr "nivcsw"); (EName "count_t")]); (ETuple [(EStr "cfuture"); (EBin OpMul (EName "count_t") (EInt 3))])])];
    (* atop_2_10.py:425-425 *) PAssign "DSK" (EAttr (EName "atop_1_26") "DSK");
    (* atop_2_10.py:428-428 *) PAssign "MEM" (EAttr (EName "atop_2_8") "MEM");
    (* atop_2_10.py:431-431 *) PAssign "NET" (EAttr (EName "atop_2_3") "NET");
    (* atop_2_10.py:434-434 *) PAssign "GPU" (EAttr (EName "atop_2_4") "GPU");
    (* atop_2_10.py:437-451 *) PClass "TStat" [(EAttr (EName "ctypes") "Structure")] [
      PIAssign "_fields_" (EList [(ETuple [(EStr "gen"); (EName "GEN")]); (ETuple [(EStr "cpu"); (EName "CPU")]); (ETuple [(EStr "dsk"); (EName "DSK")]); (ETuple [(EStr "mem"); (EName "MEM")]); (ETuple [(EStr "net"); (EName "NET")]); (ETuple [(EStr "gpu"); (EName "GPU")])])];
    (* atop_2_10.py:454-462 *) PClass "Header" [(EAttr (EName "atop_2_8") "Header")] [
      PIAssign "supported_version" (EStr "2.10");
      PIAssign "Record" (EName "Record");
      PIAssign "SStat" (EName "SStat");
      PIAssign "TStat" (EName "TStat");
      PIAssign "CStat" ENone;
      PIAssign "CGChainer" ENone]].

(** atoparser/structs/atop_2_11.py *)
Definition pk_structs_atop_2_11 : list ptop :=
  [
    (* atop_2_11.py:16-16 *) PImport "ctypes";
    (* atop_2_11.py:18-18 *) PFrom "atoparser.structs" "atop_1_26" "atop_1_26";
    (* atop_2_11.py:19-19 *) PFrom "atoparser.structs" "atop_2_3" "atop_2_3";
    (* atop_2_11.py:20-20 *) PFrom "atoparser.structs" "atop_2_4" "atop_2_4";
    (* atop_2_11.py:21-21 *) PFrom "atoparser.structs" "atop_2_7" "atop_2_7";
    (* atop_2_11.py:22-22 *) PFrom "atoparser.structs" "atop_2_8" "atop_2_8";
    (* atop_2_11.py:23-23 *) PFrom "atoparser.structs" "atop_2_10" "atop_2_10";
    (* atop_2_11.py:24-24 *) PFrom "atoparser.structs.shared" "HeaderMixin" "HeaderMixin";
    (* atop_2_11.py:25-25 *) PFrom "atoparser.structs.shared" "UTSName" "UTSName";
    (* atop_2_11.py:26-26 *) PFrom "atoparser.structs.shared" "count_t" "count_t";
    (* atop_2_11.py:27-27 *) PFrom "atoparser.structs.shared" "pid_t" "pid_t";
    (* atop_2_11.py:28-28 *) PFrom "atoparser.structs.shared" "time_t" "time_t";
    (* atop_2_11.py:35-35 *) PAssign "ACCTACTIVE" (EInt 1);
    (* atop_2_11.py:36-36 *) PAssign "IOSTAT" (EInt 4);
    (* atop_2_11.py:37-37 *) PAssign "NETATOP" (EInt 16);
    (* atop_2_11.py:38-38 *) PAssign "NETATOPD" (EInt 32);
    (* atop_2_11.py:39-39 *) PAssign "CONTAINERSTAT" (EInt 64);
    (* atop_2_11.py:40-40 *) PAssign "GPUSTAT" (EInt 128);
    (* atop_2_11.py:41-41 *) PAssign "CGROUPV2" (EInt 256);
    (* atop_2_11.py:42-42 *) PAssign "NETATOPBPF" (EInt 4096);
    (* atop_2_11.py:45-45 *) PAssign "PNAMLEN" (EInt 15);
    (* atop_2_11.py:46-46 *) PAssign "CMDLEN" (EInt 255);
    (* atop_2_11.py:47-47 *) PAssign "CGRLEN" (EInt 64);
    (* atop_2_11.py:48-48 *) PAssign "UTSLEN" (EInt 15);
    (* atop_2_11.py:51-51 *) PAssign "MAXCPU" (EInt 2048);
    (* atop_2_11.py:52-52 *) PAssign "MAXDSK" (EInt 1024);
    (* atop_2_11.py:53-53 *) PAssign "MAXNUMA" (EInt 1024);
    (* atop_2_11.py:54-54 *) PAssign "MAXLVM" (EInt 2048);
    (* atop_2_11.py:55-55 *) PAssign "MAXMDD" (EInt 256);
    (* atop_2_11.py:56-56 *) PAssign "MAXINTF" (EInt 128);
    (* atop_2_11.py:57-57 *) PAssign "MAXCONTAINER" (EInt 128);
    (* atop_2_11.py:58-58 *) PAssign "MAXNFSMOUNT" (EInt 64);
    (* atop_2_11.py:59-59 *) PAssign "MAXIBPORT" (EInt 32);
    (* atop_2_11.py:60-60 *) PAssign "MAXGPU" (EInt 32);
    (* atop_2_11.py:61-61 *) PAssign "MAXGPUBUS" (EInt 12);
    (* atop_2_11.py:62-62 *) PAssign "MAXGPUTYPE" (EInt 12);
    (* atop_2_11.py:63-63 *) PAssign "MAXLLC" (EInt 256);
    (* atop_2_11.py:64-64 *) PAssign "MAXDKNAM" (EInt 32);
    (* atop_2_11.py:65-65 *) PAssign "MAXIBNAME" (EInt 12);
    (* atop_2_11.py:68-99 *) PClass "Record" [(EAttr (EName "ctypes") "Structure")] [
      PIAssign "_fields_" (EList [(ETuple [(EStr "curtime"); (EName "time_t")]); (ETuple [(EStr "flags"); (EAttr (EName "ctypes") "c_ushort")]); (ETuple [(EStr "ncgroups"); (EAttr (EName "ctypes") "c_ushort")]); (ETuple [(EStr "sfuture"); (EBin OpMul (EAttr (EName "ctypes") "c_ushort") (EInt 2))]); (ETuple [(EStr "scomplen"); (EAttr (EName "ctypes") "c_uint")]); (ETuple [(EStr "pcomplen"); (EAttr (EName "ctypes") "c_uint")]); (ETuple [(EStr "interval"); (EAttr (EName "ctypes") "c_uint")]); (ETuple [(EStr "ndeviat"); (EAttr (EName "ctypes") "c_uint")]); (ETuple [(EStr "nactproc"); (EAttr (EName "ctypes") "c_uint")]); (ETuple [(EStr "ntask"); (EAttr (EName "ctypes") "c_uint")]); (ETuple [(EStr "totproc"); (EAttr (EName "ctypes") "c_uint")]); (ETuple [(EStr "totrun"); (EAttr (EName "ctypes") "c_uint")]); (ETuple [(EStr "totslpi"); (EAttr (EName "ctypes") "c_uint")]); (ETuple [(EStr "totslpu"); (EAttr (EName "ctypes") "c_uint")]); (ETuple [(EStr "totzomb"); (EAttr (EName "ctypes") "c_uint")]); (ETuple [(EStr "nexit"); (EAttr (EName "ctypes") "c_uint")]); (ETuple [(EStr "noverflow"); (EAttr (EName "ctypes") "c_uint")]); (ETuple [(EStr "totidle"); (EAttr (EName "ctypes") "c_uint")]); (ETuple [(EStr "ccomplen"); (EAttr (EName "ctypes") "c_uint")]); (ETuple [(EStr "coriglen"); (EAttr (EName "ctypes") "c_uint")]); (ETuple [(EStr "ncgpids"); (EAttr (EName "ctypes") "c_uint")]); (ETuple [(EStr "icomplen"); (EAttr (EName "ctypes") "c_uint")]); (ETuple [(EStr "ifuture"); (EAttr (EName "ctypes") "c_uint")])])];
    (* atop_2_11.py:102-157 *) PClass "MemStat" [(EAttr (EName "ctypes") "Structure")] [
      PIAssign "_fields_" (EList [(ETuple [(EStr "physmem"); (EName "count_t")]); (ETuple [(EStr "freemem"); (EName "count_t")]); (ETuple [(EStr "buffermem"); (EName "count_t")]); (ETuple [(EStr "slabmem"); (EName "count_t")]); (ETuple [(EStr "cachemem"); (EName "count_t")]); (ETuple [(EStr "cachedrt"); (EName "count_t")]); (ETuple [(EStr "totswap"); (EName "count_t")]); (ETuple [(EStr "freeswap"); (EName "count_t")]); (ETuple [(EStr "pgscans"); (EName "count_t")]); (ETuple [(EStr "pgsteal"); (EName "count_t")]); (ETuple [(EStr "allocstall"); (EName "count_t")]); (ETuple [(EStr "swouts"); (EName "count_t")]); (ETuple [(EStr "swins"); (EName "count_t")]); (ETuple [(EStr "tcpsock"); (EName "count_t")]); (ETuple [(EStr "udpsock"); (EName "count_t")]); (ETuple [(EStr "commitlim"); (EName "count_t")]); (ETuple [(EStr "committed"); (EName "count_t")]); (ETuple [(EStr "shmem"); (EName "count_t")]); (ETuple [(EStr "shmrss"); (EName "count_t")]); (ETuple [(EStr "shmswp"); (EName "count_t")]); (ETuple [(EStr "slabreclaim"); (EName "count_t")]); (ETuple [(EStr "stothugepage"); (EName "count_t")]); (ETuple [(EStr "sfreehugepage"); (EName "count_t")]); (ETuple [(EStr "shugepagesz"); (EName "count_t")]); (ETuple [(EStr "vmwballoon"); (EName "count_t")]); (ETuple [(EStr "zfsarcsize"); (EName "count_t")]); (ETuple [(EStr "swapcached"); (EName "count_t")]); (ETuple [(EStr "ksmsharing"); (EName "count_t")]); (ETuple [(EStr "ksmshared"); (EName "count_t")]); (ETuple [(EStr "zswapped"); (EName "count_t")]); (ETuple [(EStr "zswap"); (EName "count_t")]); (ETuple [(EStr "oomkills"); (EName "count_t")]); (ETuple [(EStr "compactstall"); (EName "count_t")]); (ETuple [(EStr "pgmigrate"); (EName "count_t")]); (ETuple [(EStr "numamigrate"); (EName "count_t")]); (ETuple [(EStr "pgouts"); (EName "count_t")]); (ETuple [(EStr "pgins"); (EName "count_t")]); (ETuple [(EStr "pagetables"); (EName "count_t")]); (ETuple [(EStr "zswouts"); (EName "count_t")]); (ETuple [(EStr "zswins"); (EName "count_t")]); (ETuple [(EStr "ltothugepage"); (EName "count_t")]); (ETuple [(EStr "lfreehugepage"); (EName "count_t")]); (ETuple [(EStr "lhugepagesz"); (EName "count_t")]); (ETuple [(EStr "availablemem"); (EName "count_t")]); (ETuple [(EStr "anonhugepage"); (EName "count_t")]); (ETuple [(EStr "cfuture"); (EBin OpMul (EName "count_t") (EInt 5))])])];
    (* atop_2_11.py:160-183 *) PClass "MemPerNUMA" [(EAttr (EName "ctypes") "Structure")] [
      PIAssign "_fields_" (EList [(ETuple [(EStr "numanr"); (EAttr (EName "ctypes") "c_int")]); (ETuple [(EStr "frag"); (EAttr (EName "ctypes") "c_float")]); (ETuple [(EStr "totmem"); (EName "count_t")]); (ETuple [(EStr "freemem"); (EName "count_t")]); (ETuple [(EStr "filepage"); (EName "count_t")]); (ETuple [(EStr "dirtymem"); (EName "count_t")]); (ETuple [(EStr "slabmem"); (EName "count_t")]); (ETuple [(EStr "slabreclaim"); (EName "count_t")]); (ETuple [(EStr "active"); (EName "count_t")]); (ETuple [(EStr "inactive"); (EName "count_t")]); (ETuple [(EStr "shmem"); (EName "count_t")]); (ETuple [(EStr "tothp"); (EName "count_t")]); (ETuple [(EStr "freehp"); (EName "count_t")]); (ETuple [(EStr "cfuture"); (EBin OpMul (EName "count_t") (EInt 2))])])];
    (* atop_2_11.py:186-198 *) PClass "MemNUMA" [(EAttr (EName "ctypes") "Structure")] [
      PIAssign "_fields_" (EList [(ETuple [(EStr "nrnuma"); (EName "count_t")]); (ETuple [(EStr "numa"); (EBin OpMul (EName "MemPerNUMA") (EName "MAXNUMA"))])]);
      PIAssign "fields_limiters" (EDict [((EStr "numa"), (EStr "nrnuma"))])];
    (* atop_2_11.py:201-222 *) PClass "CPUPerNUMA" [(EAttr (EName "ctypes") "Structure")] [
      PIAssign "_fields_" (EList [(ETuple [(EStr "numanr"); (EAttr (EName "ctypes") "c_int")]); (ETuple [(EStr "nrcpu"); (EName "count_t")]); (ETuple [(EStr "stime"); (EName "count_t")]); (ETuple [(EStr "utime"); (EName "count_t")]); (ETuple [(EStr "ntime"); (EName "count_t")]); (ETuple [(EStr "itime"); (EName "count_t")]); (ETuple [(EStr "wtime"); (EName "count_t")]); (ETuple [(EStr "Itime"); (EName "count_t")]); (ETuple [(EStr "Stime"); (EName "count_t")]); (ETuple [(EStr "steal"); (EName "count_t")]); (ETuple [(EStr "guest"); (EName "count_t")]); (ETuple [(EStr "cfuture"); (EBin OpMul (EName "count_t") (EInt 2))])])];
    (* atop_2_11.py:225-237 *) PClass "CPUNUMA" [(EAttr (EName "ctypes") "Structure")] [
      PIAssign "_fields_" (EList [(ETuple [(EStr "nrnuma"); (EName "count_t")]); (ETuple [(EStr "numa"); (EBin OpMul (EName "CPUPerNUMA") (EName "MAXNUMA"))])]);
      PIAssign "fields_limiters" (EDict [((EStr "numa"), (EStr "nrnuma"))])];
    (* atop_2_11.py:240-240 *) PAssign "FreqCnt" (EAttr (EName "atop_1_26") "FreqCnt");
    (* atop_2_11.py:243-243 *) PAssign "PerCPU" (EAttr (EName "atop_2_7") "PerCPU");
    (* atop_2_11.py:246-246 *) PAssign "CPUStat" (EAttr (EName "atop_2_7") "CPUStat");
    (* atop_2_11.py:249-249 *) PAssign "PerDSK" (EAttr (EName "atop_2_8") "PerDSK");
    (* atop_2_11.py:252-252 *) PAssign "DSKStat" (EAttr (EName "atop_2_8") "DSKStat");
    (* atop_2_11.py:255-255 *) PAssign "PerIntf" (EAttr (EName "atop_2_3") "PerIntf");
    (* atop_2_11.py:258-258 *) PAssign "IntfStat" (EAttr (EName "atop_2_3") "IntfStat");
    (* atop_2_11.py:261-261 *) PAssign "PerNFSMount" (EAttr (EName "atop_2_3") "PerNFSMount");
    (* atop_2_11.py:264-264 *) PAssign "Server" (EAttr (EName "atop_2_3") "Server");
    (* atop_2_11.py:267-267 *) PAssign "Client" (EAttr (EName "atop_2_3") "Client");
    (* atop_2_11.py:270-270 *) PAssign "NFSMounts" (EAttr (EName "atop_2_3") "NFSMounts");
    (* atop_2_11.py:273-273 *) PAssign "NFSStat" (EAttr (EName "atop_2_3") "NFSStat");
    (* atop_2_11.py:276-276 *) PAssign "PSI" (EAttr (EName "atop_2_4") "PSI");
    (* atop_2_11.py:279-279 *) PAssign "Pressure" (EAttr (EName "atop_2_4") "Pressure");
    (* atop_2_11.py:282-282 *) PAssign "PerContainer" (EAttr (EName "atop_2_3") "PerContainer");
    (* atop_2_11.py:285-285 *) PAssign "ContStat" (EAttr (EName "atop_2_3") "ContStat");
    (* atop_2_11.py:288-288 *) PAssign "WWWStat" (EAttr (EName "atop_1_26") "WWWStat");
    (* atop_2_11.py:291-291 *) PAssign "PerGPU" (EAttr (EName "atop_2_4") "PerGPU");
    (* atop_2_11.py:294-294 *) PAssign "GPUStat" (EAttr (EName "atop_2_4") "GPUStat");
    (* atop_2_11.py:297-315 *) PClass "PerIFB" [(EAttr (EName "ctypes") "Structure")] [
      PIAssign "_fields_" (EList [(ETuple [(EStr "ibname"); (EBin OpMul (EAttr (EName "ctypes") "c_char") (EName "MAXIBNAME"))]); (ETuple [(EStr "portnr"); (EAttr (EName "ctypes") "c_short")]); (ETuple [(EStr "lanes"); (EAttr (EName "ctypes") "c_short")]); (ETuple [(EStr "rate"); (EName "count_t")]); (ETuple [(EStr "rcvb"); (EName "count_t")]); (ETuple [(EStr "sndb"); (EName "count_t")]); (ETuple [(EStr "rcvp"); (EName "count_t")]); (ETuple [(EStr "sndp"); (EName "count_t")]); (ETuple [(EStr "cfuture"); (EBin OpMul (EName "count_t") (EInt 4))])])];
    (* atop_2_11.py:318-332 *) PClass "IFBStat" [(EAttr (EName "ctypes") "Structure")] [
      PIAssign "_fields_" (EList [(ETuple [(EStr "nrports"); (EAttr (EName "ctypes") "c_int")]); (ETuple [(EStr "ifb"); (EBin OpMul (EName "PerIFB") (EName "MAXIBPORT"))])]);
      PIAssign "fields_limiters" (EDict [((EStr "ifb"), (EStr "nrports"))])];
    (* atop_2_11.py:335-335 *) PAssign "PerLLC" (EAttr (EName "atop_2_8") "PerLLC");
    (* atop_2_11.py:338-338 *) PAssign "LLCStat" (EAttr (EName "atop_2_8") "LLCStat");
    (* atop_2_11.py:341-341 *) PAssign "IPv4Stats" (EAttr (EName "atop_1_26") "IPv4Stats");
    (* atop_2_11.py:344-344 *) PAssign "ICMPv4Stats" (EAttr (EName "atop_2_8") "ICMPv4Stats");
    (* atop_2_11.py:347-347 *) PAssign "UDPv4Stats" (EAttr (EName "atop_1_26") "UDPv4Stats");
    (* atop_2_11.py:350-350 *) PAssign "TCPStats" (EAttr (EName "atop_2_10") "TCPStats");
    (* atop_2_11.py:353-353 *) PAssign "IPv6Stats" (EAttr (EName "atop_1_26") "IPv6Stats");
    (* atop_2_11.py:356-356 *) PAssign "ICMPv6Stats" (EAttr (EName "atop_1_26") "ICMPv6Stats");
    (* atop_2_11.py:359-359 *) PAssign "UDPv6Stats" (EAttr (EName "atop_1_26") "UDPv6Stats");
    (* atop_2_11.py:362-362 *) PAssign "NETStat" (EAttr (EName "atop_2_10") "NETStat");
    (* atop_2_11.py:365-387 *) PClass "SStat" [(EAttr (EName "ctypes") "Structure")] [
      PIAssign "_fields_" (EList [(ETuple [(EStr "cpu"); (EName "CPUStat")]); (ETuple [(EStr "mem"); (EName "MemStat")]); (ETuple [(EStr "net"); (EName "NETStat")]); (ETuple [(EStr "intf"); (EName "IntfStat")]); (ETuple [(EStr "memnuma"); (EName "MemNUMA")]); (ETuple [(EStr "cpunuma"); (EName "CPUNUMA")]); (ETuple [(EStr "dsk"); (EName "DSKStat")]); (ETuple [(EStr "nfs"); (EName "NFSStat")]); (ETuple [(EStr "cfs"); (EName "ContStat")]); (ETuple [(EStr "psi"); (EName "Pressure")]); (ETuple [(EStr "gpu"); (EName "GPUStat")]); (ETuple [(EStr "ifb"); (EName "IFBStat")]); (ETuple [(EStr "llc"); (EName "LLCStat")]); (ETuple [(EStr "www"); (EName "WWWStat")])])];
    (* atop_2_11.py:390-428 *) PClass "GEN" [(EAttr (EName "ctypes") "Structure")] [
      PIAssign "_fields_" (EList [(ETuple [(EStr "tgid"); (EAttr (EName "ctypes") "c_int")]); (ETuple [(EStr "pid"); (EAttr (EName "ctypes") "c_int")]); (ETuple [(EStr "ppid"); (EAttr (EName "ctypes") "c_int")]); (ETuple [(EStr "ruid"); (EAttr (EName "ctypes") "c_int")]); (ETuple [(EStr "euid"); (EAttr (EName "ctypes") "c_int")]); (ETuple [(EStr "suid"); (EAttr (EName "ctypes") "c_int")]); (ETuple [(EStr "fsuid"); (EAttr (EName "ctypes") "c_int")]); (ETuple [(EStr "rgid"); (EAttr (EName "ctypes") "c_int")]); (ETuple [(EStr "egid"); (EAttr (EName "ctypes") "c_int")]); (ETuple [(EStr "sgid"); (EAttr (EName "ctypes") "c_int")]); (ETuple [(EStr "fsgid"); (EAttr (EName "ctypes") "c_int")]); (ETuple [(EStr "nthr"); (EAttr (EName "ctypes") "c_int")]); (ETuple [(EStr "name"); (EBin OpMul (EAttr (EName "ctypes") "c_char") (EBin OpAdd (EName "PNAMLEN") (EInt 1)))]); (ETuple [(EStr "isproc"); (EAttr (EName "ctypes") "c_char")]); (ETuple [(EStr "state"); (EAttr (EName "ctypes") "c_char")]); (ETuple [(EStr "excode"); (EAttr (EName "ctypes") "c_int")]); (ETuple [(EStr "btime"); (EName "time_t")]); (ETuple [(EStr "elaps"); (EName "time_t")]); (ETuple [(EStr "cmdline"); (EBin OpMul (EAttr (EName "ctypes") "c_char") (EBin OpAdd (EName "CMDLEN") (EInt 1)))]); (ETuple [(EStr "nthrslpi"); (EAttr (EName "ctypes") "c_int")]); (ETuple [(EStr "nthrslpu"); (EAttr (EName "ctypes") "c_int")]); (ETuple [(EStr "nthrrun"); (EAttr (EName "ctypes") "c_int")]); (ETuple [(EStr "nthridle"); (EAttr (EName "ctypes") "c_int")]); (ETuple [(EStr "ctid"); (EAttr (EName "ctypes") "c_int")]); (ETuple [(EStr "vpid"); (EAttr (EName "ctypes") "c_int")]); (ETuple [(EStr "wasinactive"); (EAttr (EName "ctypes") "c_int")]); (ETuple [(EStr "utsname"); (EBin OpMul (EAttr (EName "ctypes") "c_char") (EBin OpAdd (EName "UTSLEN") (EInt 1)))]); (ETuple [(EStr "cgroupix"); (EAttr (EName "ctypes") "c_int")]); (ETuple [(EStr "ifuture"); (EBin OpMul (EAttr (EName "ctypes") "c_int") (EInt 4))])])];
    (* atop_2_11.py:431-455 *) PClass "CPU" [(EAttr (EName "ctypes") "Structure")] [
      PIAssign "_fields_" (EList [(ETuple [(EStr "utime"); (EName "count_t")]); (ETuple [(EStr "stime"); (EName "count_t")]); (ETuple [(EStr "nice"); (EAttr (EName "ctypes") "c_int")]); (ETuple [(EStr "prio"); (EAttr (EName "ctypes") "c_int")]); (ETuple [(EStr "rtprio"); (EAttr (EName "ctypes") "c_int")]); (ETuple [(EStr "policy"); (EAttr (EName "ctypes") "c_int")]); (ETuple [(EStr "curcpu"); (EAttr (EName "ctypes") "c_int")]); (ETuple [(EStr "sleepavg"); (EAttr (EName "ctypes") "c_int")]); (ETuple [(EStr "ifuture"); (EBin OpMul (EAttr (EName "ctypes") "c_int") (EInt 6))]); (ETuple [(EStr "wchan"); (EBin OpMul (EAttr (EName "ctypes") "c_char") (EInt 16))]); (ETuple [(EStr "rundelay"); (EName "count_t")]); (ETuple [(EStr "blkdelay"); (EName "count_t")]); (ETuple [(EStr "nvcsw"); (EName "count_t")]); (ETuple [(EStr "nivcsw"); (EName "count_t")]); (ETuple [(EStr "cfuture"); (EBin OpMul (EName "count_t") (EInt 3))])])];
    (* atop_2_11.py:458-458 *) PAssign "DSK" (EAttr (EName "atop_1_26") "DSK");
    (* atop_2_11.py:461-484 *) PClass "MEM" [(EAttr (EName "ctypes") "Structure")] [
      PIAssign "_fields_" (EList [(ETuple [(EStr "minflt"); (EName "count_t")]); (ETuple [(EStr "majflt"); (EName "count_t")]); (ETuple [(EStr "vexec"); (EName "count_t")]); (ETuple [(EStr "vmem"); (EName "count_t")]); (ETuple [(EStr "rmem"); (EName "count_t")]); (ETuple [(EStr "pmem"); (EName "count_t")]); (ETuple [(EStr "vgrow"); (EName "count_t")]); (ETuple [(EStr "rgrow"); (EName "count_t")]); (ETuple [(EStr "vdata"); (EName "count_t")]); (ETuple [(EStr "vstack"); (EName "count_t")]); (ETuple [(EStr "vlibs"); (EName "count_t")]); (ETuple [(EStr "vswap"); (EName "count_t")]); (ETuple [(EStr "vlock"); (EName "count_t")]); (ETuple [(EStr "cfuture"); (EBin OpMul (EName "count_t") (EInt 7))])])];
    (* atop_2_11.py:487-487 *) PAssign "NET" (EAttr (EName "atop_2_3") "NET");
    (* atop_2_11.py:490-510 *) PClass "GPU" [(EAttr (EName "ctypes") "Structure")] [
      PIAssign "_fields_" (EList [(ETuple [(EStr "state"); (EAttr (EName "ctypes") "c_char")]); (ETuple [(EStr "bfuture"); (EBin OpMul (EAttr (EName "ctypes") "c_char") (EInt 3))]); (ETuple [(EStr "nrgpus"); (EAttr (EName "ctypes") "c_short")]); (ETuple [(EStr "gpulist"); (EAttr (EName "ctypes") "c_int32")]); (ETuple [(EStr "gpubusy"); (EAttr (EName "ctypes") "c_int")]); (ETuple [(EStr "membusy"); (EAttr (EName "ctypes") "c_int")]); (ETuple [(EStr "timems"); (EName "count_t")]); (ETuple [(EStr "memnow"); (EName "count_t")]); (ETuple [(EStr "memcum"); (EName "count_t")]); (ETuple [(EStr "sample"); (EName "count_t")]); (ETuple [(EStr "cfuture"); (EBin OpMul (EName "count_t") (EInt 3))])])];
    (* atop_2_11.py:513-527 *) PClass "TStat" [(EAttr (EName "ctypes") "Structure")] [
      PIAssign "_fields_" (EList [(ETuple [(EStr "gen"); (EName "GEN")]); (ETuple [(EStr "cpu"); (EName "CPU")]); (ETuple [(EStr "dsk"); (EName "DSK")]); (ETuple [(EStr "mem"); (EName "MEM")]); (ETuple [(EStr "net"); (EName "NET")]); (ETuple [(EStr "gpu"); (EName "GPU")])])];
    (* atop_2_11.py:530-550 *) PClass "CGGen" [(EAttr (EName "ctypes") "Structure")] [
      PIAssign "_fields_" (EList [(ETuple [(EStr "structlen"); (EAttr (EName "ctypes") "c_int")]); (ETuple [(EStr "sequence"); (EAttr (EName "ctypes") "c_int")]); (ETuple [(EStr "parentseq"); (EAttr (EName "ctypes") "c_int")]); (ETuple [(EStr "depth"); (EAttr (EName "ctypes") "c_int")]); (ETuple [(EStr "nprocs"); (EAttr (EName "ctypes") "c_int")]); (ETuple [(EStr "procsbelow"); (EAttr (EName "ctypes") "c_int")]); (ETuple [(EStr "namelen"); (EAttr (EName "ctypes") "c_int")]); (ETuple [(EStr "fullnamelen"); (EAttr (EName "ctypes") "c_int")]); (ETuple [(EStr "ifuture"); (EBin OpMul (EAttr (EName "ctypes") "c_int") (EInt 4))]); (ETuple [(EStr "namehash"); (EAttr (EName "ctypes") "c_long")]); (ETuple [(EStr "lfuture"); (EBin OpMul (EAttr (EName "ctypes") "c_long") (EInt 4))])])];
    (* atop_2_11.py:553-569 *) PClass "CGConf" [(EAttr (EName "ctypes") "Structure")] [
      PIAssign "_fields_" (EList [(ETuple [(EStr "cpuweight"); (EAttr (EName "ctypes") "c_int")]); (ETuple [(EStr "cpumax"); (EAttr (EName "ctypes") "c_int")]); (ETuple [(EStr "memmax"); (EName "count_t")]); (ETuple [(EStr "swpmax"); (EName "count_t")]); (ETuple [(EStr "dskweight"); (EAttr (EName "ctypes") "c_int")]); (ETuple [(EStr "ifuture"); (EBin OpMul (EAttr (EName "ctypes") "c_int") (EInt 5))]); (ETuple [(EStr "cfuture"); (EBin OpMul (EName "count_t") (EInt 5))])])];
    (* atop_2_11.py:572-586 *) PClass "CGCPU" [(EAttr (EName "ctypes") "Structure")] [
      PIAssign "_fields_" (EList [(ETuple [(EStr "utime"); (EName "count_t")]); (ETuple [(EStr "stime"); (EName "count_t")]); (ETuple [(EStr "somepres"); (EName "count_t")]); (ETuple [(EStr "fullpres"); (EName "count_t")]); (ETuple [(EStr "cfuture"); (EBin OpMul (EName "count_t") (EInt 5))])])];
    (* atop_2_11.py:589-606 *) PClass "CGMem" [(EAttr (EName "ctypes") "Structure")] [
      PIAssign "_fields_" (EList [(ETuple [(EStr "current"); (EName "count_t")]); (ETuple [(EStr "anon"); (EName "count_t")]); (ETuple [(EStr "file"); (EName "count_t")]); (ETuple [(EStr "kernel"); (EName "count_t")]); (ETuple [(EStr "shmem"); (EName "count_t")]); (ETuple [(EStr "somepres"); (EName "count_t")]); (ETuple [(EStr "fullpres"); (EName "count_t")]); (ETuple [(EStr "cfuture"); (EBin OpMul (EName "count_t") (EInt 5))])])];
    (* atop_2_11.py:609-625 *) PClass "CGDSK" [(EAttr (EName "ctypes") "Structure")] [
      PIAssign "_fields_" (EList [(ETuple [(EStr "rbytes"); (EName "count_t")]); (ETuple [(EStr "wbytes"); (EName "count_t")]); (ETuple [(EStr "rios"); (EName "count_t")]); (ETuple [(EStr "wios"); (EName "count_t")]); (ETuple [(EStr "somepres"); (EName "count_t")]); (ETuple [(EStr "fullpres"); (EName "count_t")]); (ETuple [(EStr "cfuture"); (EBin OpMul (EName "count_t") (EInt 5))])])];
    (* atop_2_11.py:628-642 *) PClass "CStat" [(EAttr (EName "ctypes") "Structure")] [
      PIAssign "_fields_" (EList [(ETuple [(EStr "gen"); (EName "CGGen")]); (ETuple [(EStr "conf"); (EName "CGConf")]); (ETuple [(EStr "cpu"); (EName "CGCPU")]); (ETuple [(EStr "mem"); (EName "CGMem")]); (ETuple [(EStr "dsk"); (EName "CGDSK")]); (ETuple [(EStr "cgname"); (EBin OpMul (EAttr (EName "ctypes") "c_char") (EInt 0))])])];
    (* atop_2_11.py:645-668 *) PClass "CGChainer" [] [
      PIAssign "_fields_" (EList [(ETuple [(EStr "cstat"); (EName "CStat")]); (ETuple [(EStr "proclist"); (ESub (EAttr (EName "ctypes") "Array") (EName "pid_t"))])]);
      PIDef (mkDef "__init__" [] [] [(EName "CStat"); (ESub (EAttr (EName "ctypes") "Array") (EName "pid_t")); ENone])];
    (* atop_2_11.py:671-705 *) PClass "Header" [(EAttr (EName "ctypes") "Structure"); (EName "HeaderMixin")] [
      PIAssign "_fields_" (EList [(ETuple [(EStr "magic"); (EAttr (EName "ctypes") "c_uint")]); (ETuple [(EStr "aversion"); (EAttr (EName "ctypes") "c_ushort")]); (ETuple [(EStr "future1"); (EAttr (EName "ctypes") "c_ushort")]); (ETuple [(EStr "future2"); (EAttr (EName "ctypes") "c_ushort")]); (ETuple [(EStr "rawheadlen"); (EAttr (EName "ctypes") "c_ushort")]); (ETuple [(EStr "rawreclen"); (EAttr (EName "ctypes") "c_ushort")]); (ETuple [(EStr "hertz"); (EAttr (EName "ctypes") "c_ushort")]); (ETuple [(EStr "pidwidth"); (EAttr (EName "ctypes") "c_ushort")]); (ETuple [(EStr "sfuture"); (EBin OpMul (EAttr (EName "ctypes") "c_ushort") (EInt 5))]); (ETuple [(EStr "sstatlen"); (EAttr (EName "ctypes") "c_uint")]); (ETuple [(EStr "tstatlen"); (EAttr (EName "ctypes") "c_uint")]); (ETuple [(EStr "utsname"); (EName "UTSName")]); (ETuple [(EStr "cfuture"); (EBin OpMul (EAttr (EName "ctypes") "c_char") (EInt 8))]); (ETuple [(EStr "pagesize"); (EAttr (EName "ctypes") "c_uint")]); (ETuple [(EStr "supportflags"); (EAttr (EName "ctypes") "c_int")]); (ETuple [(EStr "osrel"); (EAttr (EName "ctypes") "c_int")]); (ETuple [(EStr "osvers"); (EAttr (EName "ctypes") "c_int")]); (ETuple [(EStr "ossub"); (EAttr (EName "ctypes") "c_int")]); (ETuple [(EStr "cstatlen"); (EAttr (EName "ctypes") "c_int")]); (ETuple [(EStr "ifuture"); (EBin OpMul (EAttr (EName "ctypes") "c_int") (EInt 5))])]);
      PIAssign "supported_version" (EStr "2.11");
      PIAssign "Record" (EName "Record");
      PIAssign "SStat" (EName "SStat");
      PIAssign "TStat" (EName "TStat");
      PIAssign "CStat" (EName "CStat");
      PIAssign "CGChainer" (EName "CGChainer")]].

(** atoparser/structs/atop_2_12.py *)
Definition pk_structs_atop_2_12 : list ptop :=
  [
    (* atop_2_12.py:16-16 *) PImport "ctypes";
    (* atop_2_12.py:18-18 *) PFrom "atoparser.structs" "atop_1_26" "atop_1_26";
    (* atop_2_12.py:19-19 *) PFrom "atoparser.structs" "atop_2_3" "atop_2_3";
    (* atop_2_12.py:20-20 *) PFrom "atoparser.structs" "atop_2_4" "atop_2_4";
    (* atop_2_12.py:21-21 *) PFrom "atoparser.structs" "atop_2_7" "atop_2_7";
    (* atop_2_12.py:22-22 *) PFrom "atoparser.structs" "atop_2_8" "atop_2_8";
    (* atop_2_12.py:23-23 *) PFrom "atoparser.structs" "atop_2_10" "atop_2_10";
    (* atop_2_12.py:24-24 *) PFrom "atoparser.structs" "atop_2_11" "atop_2_11";
    (* atop_2_12.py:25-25 *) PFrom "atoparser.structs.shared" "HeaderMixin" "HeaderMixin";
    (* atop_2_12.py:32-32 *) PAssign "ACCTACTIVE" (EInt 1);
    (* atop_2_12.py:33-33 *) PAssign "IOSTAT" (EInt 4);
    (* atop_2_12.py:34-34 *) PAssign "NETATOP" (EInt 16);
    (* atop_2_12.py:35-35 *) PAssign "NETATOPD" (EInt 32);
    (* atop_2_12.py:36-36 *) PAssign "CONTAINERSTAT" (EInt 64);
    (* atop_2_12.py:37-37 *) PAssign "GPUSTAT" (EInt 128);
    (* atop_2_12.py:38-38 *) PAssign "CGROUPV2" (EInt 256);
    (* atop_2_12.py:39-39 *) PAssign "NETATOPBPF" (EInt 4096);
    (* atop_2_12.py:42-42 *) PAssign "PNAMLEN" (EInt 15);
    (* atop_2_12.py:43-43 *) PAssign "CMDLEN" (EInt 255);
    (* atop_2_12.py:44-44 *) PAssign "CGRLEN" (EInt 64);
    (* atop_2_12.py:45-45 *) PAssign "UTSLEN" (EInt 15);
    (* atop_2_12.py:48-48 *) PAssign "MAXCPU" (EInt 2048);
    (* atop_2_12.py:49-49 *) PAssign "MAXDSK" (EInt 1024);
    (* atop_2_12.py:50-50 *) PAssign "MAXNUMA" (EInt 1024);
    (* atop_2_12.py:51-51 *) PAssign "MAXLVM" (EInt 2048);
    (* atop_2_12.py:52-52 *) PAssign "MAXMDD" (EInt 256);
    (* atop_2_12.py:53-53 *) PAssign "MAXINTF" (EInt 128);
    (* atop_2_12.py:54-54 *) PAssign "MAXCONTAINER" (EInt 128);
    (* atop_2_12.py:55-55 *) PAssign "MAXNFSMOUNT" (EInt 64);
    (* atop_2_12.py:56-56 *) PAssign "MAXIBPORT" (EInt 32);
    (* atop_2_12.py:57-57 *) PAssign "MAXGPU" (EInt 32);
    (* atop_2_12.py:58-58 *) PAssign "MAXGPUBUS" (EInt 12);
    (* atop_2_12.py:59-59 *) PAssign "MAXGPUTYPE" (EInt 12);
    (* atop_2_12.py:60-60 *) PAssign "MAXLLC" (EInt 256);
    (* atop_2_12.py:61-61 *) PAssign "MAXDKNAM" (EInt 32);
    (* atop_2_12.py:62-62 *) PAssign "MAXIBNAME" (EInt 12);
    (* atop_2_12.py:65-65 *) PAssign "Record" (EAttr (EName "atop_2_11") "Record");
    (* atop_2_12.py:68-68 *) PAssign "MemStat" (EAttr (EName "atop_2_11") "MemStat");
    (* atop_2_12.py:71-71 *) PAssign "MemPerNUMA" (EAttr (EName "atop_2_11") "MemPerNUMA");
    (* atop_2_12.py:74-74 *) PAssign "MemNUMA" (EAttr (EName "atop_2_11") "MemNUMA");
    (* atop_2_12.py:77-77 *) PAssign "CPUPerNUMA" (EAttr (EName "atop_2_11") "CPUPerNUMA");
    (* atop_2_12.py:80-80 *) PAssign "CPUNUMA" (EAttr (EName "atop_2_11") "CPUNUMA");
    (* atop_2_12.py:83-83 *) PAssign "FreqCnt" (EAttr (EName "atop_1_26") "FreqCnt");
    (* atop_2_12.py:86-86 *) PAssign "PerCPU" (EAttr (EName "atop_2_7") "PerCPU");
    (* atop_2_12.py:89-89 *) PAssign "CPUStat" (EAttr (EName "atop_2_7") "CPUStat");
    (* atop_2_12.py:92-92 *) PAssign "PerDSK" (EAttr (EName "atop_2_8") "PerDSK");
    (* atop_2_12.py:95-95 *) PAssign "DSKStat" (EAttr (EName "atop_2_8") "DSKStat");
    (* atop_2_12.py:98-98 *) PAssign "PerIntf" (EAttr (EName "atop_2_3") "PerIntf");
    (* atop_2_12.py:101-101 *) PAssign "IntfStat" (EAttr (EName "atop_2_3") "IntfStat");
    (* atop_2_12.py:104-104 *) PAssign "PerNFSMount" (EAttr (EName "atop_2_3") "PerNFSMount");
    (* atop_2_12.py:107-107 *) PAssign "Server" (EAttr (EName "atop_2_3") "Server");
    (* atop_2_12.py:110-110 *) PAssign "Client" (EAttr (EName "atop_2_3") "Client");
    (* atop_2_12.py:113-113 *) PAssign "NFSMounts" (EAttr (EName "atop_2_3") "NFSMounts");
    (* atop_2_12.py:116-116 *) PAssign "NFSStat" (EAttr (EName "atop_2_3") "NFSStat");
    (* atop_2_12.py:119-119 *) PAssign "PSI" (EAttr (EName "atop_2_4") "PSI");
    (* atop_2_12.py:122-122 *) PAssign "Pressure" (EAttr (EName "atop_2_4") "Pressure");
    (* atop_2_12.py:125-125 *) PAssign "PerContainer" (EAttr (EName "atop_2_3") "PerContainer");
    (* atop_2_12.py:128-128 *) PAssign "ContStat" (EAttr (EName "atop_2_3") "ContStat");
    (* atop_2_12.py:131-131 *) PAssign "WWWStat" (EAttr (EName "atop_1_26") "WWWStat");
    (* atop_2_12.py:134-134 *) PAssign "PerGPU" (EAttr (EName "atop_2_4") "PerGPU");
    (* atop_2_12.py:137-137 *) PAssign "GPUStat" (EAttr (EName "atop_2_4") "GPUStat");
    (* atop_2_12.py:140-140 *) PAssign "PerIFB" (EAttr (EName "atop_2_11") "PerIFB");
    (* atop_2_12.py:143-143 *) PAssign "IFBStat" (EAttr (EName "atop_2_11") "IFBStat");
    (* atop_2_12.py:146-146 *) PAssign "PerLLC" (EAttr (EName "atop_2_8") "PerLLC");
    (* atop_2_12.py:149-149 *) PAssign "LLCStat" (EAttr (EName "atop_2_8") "LLCStat");
    (* atop_2_12.py:152-152 *) PAssign "IPv4Stats" (EAttr (EName "atop_1_26") "IPv4Stats");
    (* atop_2_12.py:155-155 *) PAssign "ICMPv4Stats" (EAttr (EName "atop_2_8") "ICMPv4Stats");
    (* atop_2_12.py:158-158 *) PAssign "UDPv4Stats" (EAttr (EName "atop_1_26") "UDPv4Stats");
    (* atop_2_12.py:161-161 *) PAssign "TCPStats" (EAttr (EName "atop_2_10") "TCPStats");
    (* atop_2_12.py:164-164 *) PAssign "IPv6Stats" (EAttr (EName "atop_1_26") "IPv6Stats");
    (* atop_2_12.py:167-167 *) PAssign "ICMPv6Stats" (EAttr (EName "atop_1_26") "ICMPv6Stats");
    (* atop_2_12.py:170-170 *) PAssign "UDPv6Stats" (EAttr (EName "atop_1_26") "UDPv6Stats");
    (* atop_2_12.py:173-173 *) PAssign "NETStat" (EAttr (EName "atop_2_10") "NETStat");
    (* atop_2_12.py:176-176 *) PAssign "SStat" (EAttr (EName "atop_2_11") "SStat");
    (* atop_2_12.py:179-179 *) PAssign "GEN" (EAttr (EName "atop_2_11") "GEN");
    (* atop_2_12.py:182-182 *) PAssign "CPU" (EAttr (EName "atop_2_11") "CPU");
    (* atop_2_12.py:185-185 *) PAssign "DSK" (EAttr (EName "atop_1_26") "DSK");
    (* atop_2_12.py:188-188 *) PAssign "MEM" (EAttr (EName "atop_2_11") "MEM");
    (* atop_2_12.py:191-191 *) PAssign "NET" (EAttr (EName "atop_2_3") "NET");
    (* atop_2_12.py:194-194 *) PAssign "GPU" (EAttr (EName "atop_2_11") "GPU");
    (* atop_2_12.py:197-197 *) PAssign "TStat" (EAttr (EName "atop_2_11") "TStat");
    (* atop_2_12.py:200-200 *) PAssign "CGGen" (EAttr (EName "atop_2_11") "CGGen");
    (* atop_2_12.py:203-203 *) PAssign "CGConf" (EAttr (EName "atop_2_11") "CGConf");
    (* atop_2_12.py:206-206 *) PAssign "CGCPU" (EAttr (EName "atop_2_11") "CGCPU");
    (* atop_2_12.py:209-209 *) PAssign "CGMem" (EAttr (EName "atop_2_11") "CGMem");
    (* atop_2_12.py:212-212 *) PAssign "CGDSK" (EAttr (EName "atop_2_11") "CGDSK");
    (* atop_2_12.py:215-215 *) PAssign "CStat" (EAttr (EName "atop_2_11") "CStat");
    (* atop_2_12.py:218-218 *) PAssign "CGChainer" (EAttr (EName "atop_2_11") "CGChainer");
    (* atop_2_12.py:221-234 *) PClass "Header" [(EAttr (EName "ctypes") "Structure"); (EName "HeaderMixin")] [
      PIAssign "_fields_" (EAttr (EAttr (EName "atop_2_11") "Header") "_fields_");
      PIAssign "supported_version" (EStr "2.12");
      PIAssign "Record" (EName "Record");
      PIAssign "SStat" (EName "SStat");
      PIAssign "TStat" (EName "TStat");
      PIAssign "CStat" (EName "CStat");
      PIAssign "CGChainer" (EName "CGChainer")]].

(** The modules of the package, by name. *)
Definition package : list (string * list ptop) :=
  [("atoparser", pk___init__); ("atoparser.structs", pk_structs___init__); ("atoparser.parsers", pk_parsers___init__); ("atoparser.utils", pk_utils); ("atoparser.parsers.atop_1_26", pk_parsers_atop_1_26); ("atoparser.reader", pk_reader); ("atoparser.structs.shared", pk_structs_shared); ("atoparser.structs.atop_1_26", pk_structs_atop_1_26); ("atoparser.structs.atop_2_3", pk_structs_atop_2_3); ("atoparser.structs.atop_2_4", pk_structs_atop_2_4); ("atoparser.structs.atop_2_5", pk_structs_atop_2_5); ("atoparser.structs.atop_2_6", pk_structs_atop_2_6); ("atoparser.structs.atop_2_7", pk_structs_atop_2_7); ("atoparser.structs.atop_2_8", pk_structs_atop_2_8); ("atoparser.structs.atop_2_9", pk_structs_atop_2_9); ("atoparser.structs.atop_2_10", pk_structs_atop_2_10); ("atoparser.structs.atop_2_11", pk_structs_atop_2_11); ("atoparser.structs.atop_2_12", pk_structs_atop_2_12)].
