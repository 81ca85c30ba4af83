(** * The code of /repo/atoparser, as data

    Generated by tools/gen_source.py from the files named below; do not edit. *)
From Coq Require Import List ZArith String.
From Verif Require Import PySyntax.
Import ListNotations.
Local Open Scope string_scope.
Local Open Scope Z_scope.

(** atoparser/structs/shared.py:17-17 *)
Definition ss_val_time_t : expr :=
  (EAttr (EName "ctypes") "c_long").

(** atoparser/structs/shared.py:20-20 *)
Definition ss_val_count_t : expr :=
  (EAttr (EName "ctypes") "c_longlong").

(** atoparser/structs/shared.py:23-23 *)
Definition ss_val_off_t : expr :=
  (EAttr (EName "ctypes") "c_long").

(** atoparser/structs/shared.py:24-24 *)
Definition ss_val_pid_t : expr :=
  (EAttr (EName "ctypes") "c_int").

(** atoparser/structs/shared.py:41-61 *)
Definition ss_HeaderMixin_check_compatibility : fundef :=
  mkFun [("self", None)] false
    [
    SAssign (TgName "sizes") (EList [(ETuple [(EStr "Header"); (EAttr (EName "self") "rawheadlen"); (ECall (EAttr (EName "ctypes") "sizeof") [(EAttr (EName "self") "__class__")] [])]); (ETuple [(EStr "Record"); (EAttr (EName "self") "rawreclen"); (ECall (EAttr (EName "ctypes") "sizeof") [(EAttr (EName "self") "Record")] [])]); (ETuple [(EStr "SStat"); (EAttr (EName "self") "sstatlen"); (ECall (EAttr (EName "ctypes") "sizeof") [(EAttr (EName "self") "SStat")] [])])]);
    SIf (EAnd (ECmp OpGe (EAttr (EName "self") "major_version") (EInt 2)) (ECmp OpGe (EAttr (EName "self") "minor_version") (EInt 3))) [
      SExpr (ECall (EAttr (EName "sizes") "append") [(ETuple [(EStr "TStat"); (EAttr (EName "self") "tstatlen"); (ECall (EAttr (EName "ctypes") "sizeof") [(EAttr (EName "self") "TStat")] [])])] [])] [
      SExpr (ECall (EAttr (EName "sizes") "append") [(ETuple [(EStr "PStat"); (EAttr (EName "self") "pstatlen"); (ECall (EAttr (EName "ctypes") "sizeof") [(EAttr (EName "self") "TStat")] [])])] [])];
    SIf (EAnd (ECmp OpGe (EAttr (EName "self") "major_version") (EInt 2)) (ECmp OpGe (EAttr (EName "self") "minor_version") (EInt 11))) [
      SExpr (ECall (EAttr (EName "sizes") "append") [(ETuple [(EStr "CStat"); (EAttr (EName "self") "cstatlen"); (ECall (EAttr (EName "ctypes") "sizeof") [(EAttr (EName "self") "CStat")] [])])] [])] [];
    SIf (ECall (EName "any") [(EGenExp (ECmp OpNe (ESub (EName "size") (EInt 1)) (ESub (EName "size") (EInt 2))) "size" (EName "sizes"))] []) [
      SRaise (ECall (EName "ValueError") [(EFStr [(EStr "File has incompatible Atop format. Struct length evaluations (type, found, expected): "); (EName "sizes")])] [])] []].

(** atoparser/structs/shared.py:64-67 *)
Definition ss_HeaderMixin_major_version : fundef :=
  mkFun [("self", None)] false
    [
    SExpr (EAttr (EName "self") "semantic_version");
    SReturn (EAttr (EName "self") "_major_version")].

(** atoparser/structs/shared.py:70-73 *)
Definition ss_HeaderMixin_minor_version : fundef :=
  mkFun [("self", None)] false
    [
    SExpr (EAttr (EName "self") "semantic_version");
    SReturn (EAttr (EName "self") "_minor_version")].

(** atoparser/structs/shared.py:76-89 *)
Definition ss_HeaderMixin_semantic_version : fundef :=
  mkFun [("self", None)] false
    [
    SIf (ENot (ECall (EName "getattr") [(EName "self"); (EStr "_semantic_version"); ENone] [])) [
      SAssign (TgAttr (EName "self") "_major_version") (EBin OpBitAnd (EBin OpRShift (EAttr (EName "self") "aversion") (EInt 8)) (EInt 127));
      SAssign (TgAttr (EName "self") "_minor_version") (EBin OpBitAnd (EAttr (EName "self") "aversion") (EInt 255));
      SAssign (TgAttr (EName "self") "_semantic_version") (EFStr [(EAttr (EName "self") "_major_version"); (EStr "."); (EAttr (EName "self") "_minor_version")])] [];
    SReturn (EAttr (EName "self") "_semantic_version")].

(** atoparser/structs/shared.py *)
Definition ss_module : pymodule :=
  mkModule
    [("ctypes", ("ctypes", None))]
    [("time_t", ss_val_time_t); ("count_t", ss_val_count_t); ("off_t", ss_val_off_t); ("pid_t", ss_val_pid_t)]
    [("HeaderMixin.check_compatibility", ss_HeaderMixin_check_compatibility); ("HeaderMixin.major_version", ss_HeaderMixin_major_version); ("HeaderMixin.minor_version", ss_HeaderMixin_minor_version); ("HeaderMixin.semantic_version", ss_HeaderMixin_semantic_version)].

(** atoparser/structs/atop_2_11.py:660-668 *)
Definition sc_CGChainer___init__ : fundef :=
  mkFun [("self", None); ("cstat", None); ("proclist", None)] false
    [
    SAssign (TgAttr (EName "self") "cstat") (EName "cstat");
    SAssign (TgAttr (EName "self") "proclist") (EName "proclist")].

(** atoparser/structs/atop_2_11.py *)
Definition sc_module : pymodule :=
  mkModule
    []
    []
    [("CGChainer.__init__", sc_CGChainer___init__)].

(** atoparser/utils.py:47-59 *)
Definition u_val_VERSIONS : expr :=
  (EList [(EName "atop_1_26"); (EName "atop_2_3"); (EName "atop_2_4"); (EName "atop_2_5"); (EName "atop_2_6"); (EName "atop_2_7"); (EName "atop_2_8"); (EName "atop_2_9"); (EName "atop_2_10"); (EName "atop_2_11"); (EName "atop_2_12")]).

(** atoparser/utils.py:60-60 *)
Definition u_val_CSTAT_VERSIONS : expr :=
  (ESlice (EName "_VERSIONS") (Some (EInt 9)) None).

(** atoparser/utils.py:62-62 *)
Definition u_val_DEFAULT_VERSION : expr :=
  (EAttr (EAttr (ESub (EName "_VERSIONS") (ENeg (EInt 1))) "Header") "supported_version").

(** atoparser/utils.py:63-63 *)
Definition u_val_HEADER_BY_VERSION : expr :=
  (EDictComp (EAttr (EAttr (EName "module") "Header") "supported_version") (EAttr (EName "module") "Header") "module" (EName "_VERSIONS")).

(** atoparser/utils.py:76-76 *)
Definition u_val_MAX_SAMPLES_PER_FILE : expr :=
  (EInt 86400).

(** atoparser/utils.py:79-79 *)
Definition u_val_MAGIC : expr :=
  (EInt 4276993775).

(** atoparser/utils.py:82-129 *)
Definition u_generate_statistics : fundef :=
  mkFun [("raw_file", None); ("header", (Some ENone)); ("raise_on_truncation", (Some (EBool true))); ("max_samples", (Some (EName "MAX_SAMPLES_PER_FILE")))] true
    [
    SIf (ECmp OpIs (EName "header") ENone) [
      SAssign (TgName "header") (ECall (EName "get_header") [(EName "raw_file")] [])] [];
    STry [
      SAssign (TgName "header_version") (EAttr (EName "header") "semantic_version");
      SAssign (TgTuple ["major"; "minor"]) (ESlice (ECall (EAttr (EName "header_version") "split") [(EStr ".")] []) None (Some (EInt 2)));
      SAssign (TgTuple ["major"; "minor"]) (ETuple [(ECall (EName "int") [(EName "major")] []); (ECall (EName "int") [(EName "minor")] [])]);
      SFor (TgName "_") (ECall (EName "range") [(EName "max_samples")] []) [
        SAssign (TgName "record") (ECall (EName "get_record") [(EName "raw_file"); (EName "header")] []);
        SIf (ECmp OpLe (EAttr (EName "record") "scomplen") (EInt 0)) [
          SBreak] [];
        SAssign (TgName "sstat") (ECall (EName "get_sstat") [(EName "raw_file"); (EName "header"); (EName "record")] []);
        SAssign (TgName "tstats") (ECall (EName "get_tstat") [(EName "raw_file"); (EName "header"); (EName "record")] []);
        SIf (EAnd (ECmp OpGe (EName "major") (EInt 2)) (ECmp OpGe (EName "minor") (EInt 11))) [
          SAssign (TgName "cgroups") (ECall (EName "get_cstat") [(EName "raw_file"); (EName "header"); (EName "record")] [])] [
          SAssign (TgName "cgroups") (EList [])];
        SYield (ETuple [(EName "record"); (EName "sstat"); (EName "tstats"); (EName "cgroups")])]] (EAttr (EName "zlib") "error") [
      SIf (EName "raise_on_truncation") [
        SReraise] []]].

(** atoparser/utils.py:132-163 *)
Definition u_get_header : fundef :=
  mkFun [("raw_file", None); ("check_compatibility", (Some (EBool true)))] false
    [
    SAssign (TgName "header") (ECall (ESub (EName "_HEADER_BY_VERSION") (EName "_DEFAULT_VERSION")) [] []);
    SExpr (ECall (EAttr (EName "raw_file") "readinto") [(EName "header")] []);
    SIf (ECmp OpNe (EAttr (EName "header") "magic") (EName "MAGIC")) [
      SAssign (TgName "msg") (EFStr [(EStr "File does not contain raw atop output (wrong magic number): "); (ECall (EName "hex") [(EAttr (EName "header") "magic")] [])]);
      SRaise (ECall (EName "ValueError") [(EName "msg")] [])] [];
    SAssign (TgName "header_version") (EAttr (EName "header") "semantic_version");
    SIf (EAnd (ECmp OpNe (EName "header_version") (EName "_DEFAULT_VERSION")) (ECmp OpIn (EName "header_version") (EName "_HEADER_BY_VERSION"))) [
      SAssign (TgName "header") (ECall (EAttr (ESub (EName "_HEADER_BY_VERSION") (EName "header_version")) "from_buffer") [(EName "header")] [])] [];
    SIf (EName "check_compatibility") [
      SExpr (ECall (EAttr (EName "header") "check_compatibility") [] [])] [];
    SReturn (EName "header")].

(** atoparser/utils.py:166-184 *)
Definition u_get_record : fundef :=
  mkFun [("raw_file", None); ("header", None)] false
    [
    SAssign (TgName "record") (ECall (EAttr (EName "header") "Record") [] []);
    SExpr (ECall (EAttr (EName "raw_file") "readinto") [(EName "record")] []);
    SReturn (EName "record")].

(** atoparser/utils.py:187-210 *)
Definition u_get_sstat : fundef :=
  mkFun [("raw_file", None); ("header", None); ("record", None)] false
    [
    SAssign (TgName "buffer") (ECall (EAttr (EName "raw_file") "read") [(EAttr (EName "record") "scomplen")] []);
    SAssign (TgName "decompressed") (ECall (EAttr (EName "zlib") "decompress") [(EName "buffer")] []);
    SAssign (TgName "sstat") (ECall (EAttr (EAttr (EName "header") "SStat") "from_buffer_copy") [(EName "decompressed")] []);
    SReturn (EName "sstat")].

(** atoparser/utils.py:213-245 *)
Definition u_get_tstat : fundef :=
  mkFun [("raw_file", None); ("header", None); ("record", None)] false
    [
    SAssign (TgName "buffer") (ECall (EAttr (EName "raw_file") "read") [(EAttr (EName "record") "pcomplen")] []);
    SAssign (TgName "decompressed") (ECall (EAttr (EName "zlib") "decompress") [(EName "buffer")] []);
    SAssign (TgName "record_count") (EIf (ECall (EName "isinstance") [(EName "record"); (EAttr (EName "atop_1_26") "Record")] []) (EAttr (EName "record") "nlist") (EAttr (EName "record") "ndeviat"));
    SAssign (TgName "tstatlen") (EIf (EAnd (ECmp OpGe (EAttr (EName "header") "major_version") (EInt 2)) (ECmp OpGe (EAttr (EName "header") "minor_version") (EInt 3))) (EAttr (EName "header") "tstatlen") (EAttr (EName "header") "pstatlen"));
    SAssign (TgName "tstats") (EList []);
    SFor (TgName "index") (ECall (EName "range") [(EName "record_count")] []) [
      SAssign (TgName "tstat") (ECall (EAttr (EAttr (EName "header") "TStat") "from_buffer_copy") [(ESlice (EName "decompressed") (Some (EBin OpMul (EName "index") (EName "tstatlen"))) (Some (EBin OpMul (EName "tstatlen") (EBin OpAdd (EName "index") (EInt 1)))))] []);
      SExpr (ECall (EAttr (EName "tstats") "append") [(EName "tstat")] [])];
    SReturn (EName "tstats")].

(** atoparser/utils.py:248-293 *)
Definition u_get_cstat : fundef :=
  mkFun [("raw_file", None); ("header", None); ("record", None)] false
    [
    SAssign (TgName "buffer_cstats") (ECall (EAttr (EName "raw_file") "read") [(EAttr (EName "record") "ccomplen")] []);
    SAssign (TgName "decompressed_cstats") (ECall (EAttr (EName "zlib") "decompress") [(EName "buffer_cstats")] []);
    SAssign (TgName "buffer_pidlist") (ECall (EAttr (EName "raw_file") "read") [(EAttr (EName "record") "icomplen")] []);
    SAssign (TgName "decompressed_pidlist") (ECall (EAttr (EName "zlib") "decompress") [(EName "buffer_pidlist")] []);
    SAssign (TgName "cgroups") (EList []);
    SAssign (TgName "cstat_start") (EInt 0);
    SAssign (TgName "cstatlen") (EAttr (EName "header") "cstatlen");
    SAssign (TgName "pidlist_start") (EInt 0);
    SFor (TgName "_") (ECall (EName "range") [(EAttr (EName "record") "ncgroups")] []) [
      SAssign (TgName "cstat") (ECall (EAttr (EAttr (EName "header") "CStat") "from_buffer_copy") [(ESlice (EName "decompressed_cstats") (Some (EName "cstat_start")) (Some (EBin OpAdd (EName "cstat_start") (EName "cstatlen"))))] []);
      SAug "cstat_start" OpAdd (EAttr (EAttr (EName "cstat") "gen") "structlen");
      SAssign (TgName "pid_array") (EBin OpMul (EName "pid_t") (EAttr (EAttr (EName "cstat") "gen") "nprocs"));
      SAssign (TgName "pid_array_size") (ECall (EAttr (EName "ctypes") "sizeof") [(EName "pid_array")] []);
      SAssign (TgName "pidlist") (ECall (EAttr (EName "pid_array") "from_buffer_copy") [(ESlice (EName "decompressed_pidlist") (Some (EName "pidlist_start")) (Some (EBin OpAdd (EName "pidlist_start") (EName "pid_array_size"))))] []);
      SAug "pidlist_start" OpAdd (EName "pid_array_size");
      SExpr (ECall (EAttr (EName "cgroups") "append") [(ECall (EAttr (EName "header") "CGChainer") [(EName "cstat"); (EName "pidlist")] [])] [])];
    SReturn (EName "cgroups")].

(** atoparser/utils.py:296-329 *)
Definition u_struct_to_dict : fundef :=
  mkFun [("struct", None)] false
    [
    SAssign (TgName "struct_dict") (EDict []);
    SFor (TgName "field") (EAttr (EName "struct") "_fields_") [
      SAssign (TgName "field_name") (ESub (EName "field") (EInt 0));
      SAssign (TgName "field_data") (ECall (EName "getattr") [(EName "struct"); (EName "field_name")] []);
      SIf (ECall (EName "isinstance") [(EName "field_data"); (EAttr (EName "ctypes") "Structure")] []) [
        SAssign (TgSub (EName "struct_dict") (EName "field_name")) (ECall (EName "struct_to_dict") [(EName "field_data")] [])] [
        SIf (ECmp OpNotIn (EStr "future") (EName "field_name")) [
          SIf (ECall (EName "isinstance") [(EName "field_data"); (EAttr (EName "ctypes") "Array")] []) [
            SAssign (TgSub (EName "struct_dict") (EName "field_name")) (EList []);
            SAssign (TgName "limiters") (ECall (EName "getattr") [(EName "struct"); (EStr "fields_limiters"); (EDict [])] []);
            SAssign (TgName "limiter") (ECall (EAttr (EName "limiters") "get") [(EName "field_name")] []);
            SIf (EName "limiter") [
              SAssign (TgName "field_data") (ESlice (EName "field_data") None (Some (ECall (EName "getattr") [(EName "struct"); (EName "limiter")] [])))] [];
            SFor (TgName "sub_data") (EName "field_data") [
              SIf (ECall (EName "isinstance") [(EName "sub_data"); (EAttr (EName "ctypes") "Structure")] []) [
                SExpr (ECall (EAttr (ESub (EName "struct_dict") (EName "field_name")) "append") [(ECall (EName "struct_to_dict") [(EName "sub_data")] [])] [])] [
                SExpr (ECall (EAttr (ESub (EName "struct_dict") (EName "field_name")) "append") [(EName "sub_data")] [])]]] [
            SIf (ECall (EName "isinstance") [(EName "field_data"); (EName "bytes")] []) [
              SAssign (TgSub (EName "struct_dict") (EName "field_name")) (ECall (EAttr (EName "field_data") "decode") [] [("errors", (EStr "ignore"))])] [
              SAssign (TgSub (EName "struct_dict") (EName "field_name")) (EName "field_data")]]] []]];
    SReturn (EName "struct_dict")].

(** atoparser/utils.py *)
Definition u_module : pymodule :=
  mkModule
    [("ctypes", ("ctypes", None)); ("io", ("io", None)); ("zlib", ("zlib", None)); ("atop_1_26", ("atoparser.structs", Some "atop_1_26")); ("atop_2_3", ("atoparser.structs", Some "atop_2_3")); ("atop_2_4", ("atoparser.structs", Some "atop_2_4")); ("atop_2_5", ("atoparser.structs", Some "atop_2_5")); ("atop_2_6", ("atoparser.structs", Some "atop_2_6")); ("atop_2_7", ("atoparser.structs", Some "atop_2_7")); ("atop_2_8", ("atoparser.structs", Some "atop_2_8")); ("atop_2_9", ("atoparser.structs", Some "atop_2_9")); ("atop_2_10", ("atoparser.structs", Some "atop_2_10")); ("atop_2_11", ("atoparser.structs", Some "atop_2_11")); ("atop_2_12", ("atoparser.structs", Some "atop_2_12")); ("pid_t", ("atoparser.structs.shared", Some "pid_t"))]
    [("_VERSIONS", u_val_VERSIONS); ("_CSTAT_VERSIONS", u_val_CSTAT_VERSIONS); ("_DEFAULT_VERSION", u_val_DEFAULT_VERSION); ("_HEADER_BY_VERSION", u_val_HEADER_BY_VERSION); ("MAX_SAMPLES_PER_FILE", u_val_MAX_SAMPLES_PER_FILE); ("MAGIC", u_val_MAGIC)]
    [("generate_statistics", u_generate_statistics); ("get_header", u_get_header); ("get_record", u_get_record); ("get_sstat", u_get_sstat); ("get_tstat", u_get_tstat); ("get_cstat", u_get_cstat); ("struct_to_dict", u_struct_to_dict)].

(** atoparser/parsers/atop_1_26.py:11-37 *)
Definition p_parse_cpu : fundef :=
  mkFun [("header", None); ("record", None); ("sstat", None); ("tstats", None)] true
    [
    SFor (TgTuple ["index"; "cpu"]) (ECall (EName "enumerate") [(EAttr (EAttr (EName "sstat") "cpu") "cpu")] []) [
      SIf (ECmp OpGe (EName "index") (EAttr (EAttr (EName "sstat") "cpu") "nrcpu")) [
        SBreak] [];
      SAssign (TgName "values") (EDict [((EStr "timestamp"), (EAttr (EName "record") "curtime")); ((EStr "interval"), (EAttr (EName "record") "interval")); ((EStr "ticks"), (EAttr (EName "header") "hertz")); ((EStr "proc"), (EName "index")); ((EStr "system"), (EAttr (EName "cpu") "stime")); ((EStr "user"), (EAttr (EName "cpu") "utime")); ((EStr "niced"), (EAttr (EName "cpu") "ntime")); ((EStr "idle"), (EAttr (EName "cpu") "itime")); ((EStr "wait"), (EAttr (EName "cpu") "wtime")); ((EStr "irq"), (EAttr (EName "cpu") "Itime")); ((EStr "softirq"), (EAttr (EName "cpu") "Stime")); ((EStr "steal"), (EAttr (EName "cpu") "steal")); ((EStr "guest"), (EAttr (EName "cpu") "guest"))]);
      SYield (EName "values")]].

(** atoparser/parsers/atop_1_26.py:40-57 *)
Definition p_parse_CPL : fundef :=
  mkFun [("header", None); ("record", None); ("sstat", None); ("tstats", None)] true
    [
    SAssign (TgName "values") (EDict [((EStr "timestamp"), (EAttr (EName "record") "curtime")); ((EStr "interval"), (EAttr (EName "record") "interval")); ((EStr "procs"), (EAttr (EAttr (EName "sstat") "cpu") "nrcpu")); ((EStr "load_1"), (EAttr (EAttr (EName "sstat") "cpu") "lavg1")); ((EStr "load_5"), (EAttr (EAttr (EName "sstat") "cpu") "lavg5")); ((EStr "load_15"), (EAttr (EAttr (EName "sstat") "cpu") "lavg15")); ((EStr "context_switches"), (EAttr (EAttr (EName "sstat") "cpu") "csw")); ((EStr "interrupts"), (EAttr (EAttr (EName "sstat") "cpu") "devint"))]);
    SYield (EName "values")].

(** atoparser/parsers/atop_1_26.py:60-82 *)
Definition p_parse_CPU : fundef :=
  mkFun [("header", None); ("record", None); ("sstat", None); ("tstats", None)] true
    [
    SAssign (TgName "values") (EDict [((EStr "timestamp"), (EAttr (EName "record") "curtime")); ((EStr "interval"), (EAttr (EName "record") "interval")); ((EStr "ticks"), (EAttr (EName "header") "hertz")); ((EStr "procs"), (EAttr (EAttr (EName "sstat") "cpu") "nrcpu")); ((EStr "system"), (EAttr (EAttr (EAttr (EName "sstat") "cpu") "all") "stime")); ((EStr "user"), (EAttr (EAttr (EAttr (EName "sstat") "cpu") "all") "utime")); ((EStr "niced"), (EAttr (EAttr (EAttr (EName "sstat") "cpu") "all") "ntime")); ((EStr "idle"), (EAttr (EAttr (EAttr (EName "sstat") "cpu") "all") "itime")); ((EStr "wait"), (EAttr (EAttr (EAttr (EName "sstat") "cpu") "all") "wtime")); ((EStr "irq"), (EAttr (EAttr (EAttr (EName "sstat") "cpu") "all") "Itime")); ((EStr "softirq"), (EAttr (EAttr (EAttr (EName "sstat") "cpu") "all") "Stime")); ((EStr "steal"), (EAttr (EAttr (EAttr (EName "sstat") "cpu") "all") "steal")); ((EStr "guest"), (EAttr (EAttr (EAttr (EName "sstat") "cpu") "all") "guest"))]);
    SYield (EName "values")].

(** atoparser/parsers/atop_1_26.py:85-106 *)
Definition p_parse_DSK : fundef :=
  mkFun [("header", None); ("record", None); ("sstat", None); ("tstats", None)] true
    [
    SFor (TgName "disk") (EAttr (EAttr (EName "sstat") "dsk") "dsk") [
      SIf (ENot (EAttr (EName "disk") "name")) [
        SBreak] [];
      SAssign (TgName "values") (EDict [((EStr "timestamp"), (EAttr (EName "record") "curtime")); ((EStr "interval"), (EAttr (EName "record") "interval")); ((EStr "name"), (ECall (EAttr (EAttr (EName "disk") "name") "decode") [] [])); ((EStr "io_ms"), (EAttr (EName "disk") "io_ms")); ((EStr "reads"), (EAttr (EName "disk") "nread")); ((EStr "read_sectors"), (EAttr (EName "disk") "nrsect")); ((EStr "writes"), (EAttr (EName "disk") "nwrite")); ((EStr "write_sectors"), (EAttr (EName "disk") "nwsect"))]);
      SYield (EName "values")]].

(** atoparser/parsers/atop_1_26.py:109-130 *)
Definition p_parse_LVM : fundef :=
  mkFun [("header", None); ("record", None); ("sstat", None); ("tstats", None)] true
    [
    SFor (TgName "lvm") (EAttr (EAttr (EName "sstat") "dsk") "lvm") [
      SIf (ENot (EAttr (EName "lvm") "name")) [
        SBreak] [];
      SAssign (TgName "values") (EDict [((EStr "timestamp"), (EAttr (EName "record") "curtime")); ((EStr "interval"), (EAttr (EName "record") "interval")); ((EStr "name"), (ECall (EAttr (EAttr (EName "lvm") "name") "decode") [] [])); ((EStr "io_ms"), (EAttr (EName "lvm") "io_ms")); ((EStr "reads"), (EAttr (EName "lvm") "nread")); ((EStr "read_sectors"), (EAttr (EName "lvm") "nrsect")); ((EStr "writes"), (EAttr (EName "lvm") "nwrite")); ((EStr "write_sectors"), (EAttr (EName "lvm") "nwsect"))]);
      SYield (EName "values")]].

(** atoparser/parsers/atop_1_26.py:133-154 *)
Definition p_parse_MDD : fundef :=
  mkFun [("header", None); ("record", None); ("sstat", None); ("tstats", None)] true
    [
    SFor (TgName "mdd") (EAttr (EAttr (EName "sstat") "dsk") "mdd") [
      SIf (ENot (EAttr (EName "mdd") "name")) [
        SBreak] [];
      SAssign (TgName "values") (EDict [((EStr "timestamp"), (EAttr (EName "record") "curtime")); ((EStr "interval"), (EAttr (EName "record") "interval")); ((EStr "name"), (ECall (EAttr (EAttr (EName "mdd") "name") "decode") [] [])); ((EStr "io_ms"), (EAttr (EName "mdd") "io_ms")); ((EStr "reads"), (EAttr (EName "mdd") "nread")); ((EStr "read_sectors"), (EAttr (EName "mdd") "nrsect")); ((EStr "writes"), (EAttr (EName "mdd") "nwrite")); ((EStr "write_sectors"), (EAttr (EName "mdd") "nwsect"))]);
      SYield (EName "values")]].

(** atoparser/parsers/atop_1_26.py:157-175 *)
Definition p_parse_MEM : fundef :=
  mkFun [("header", None); ("record", None); ("sstat", None); ("tstats", None)] true
    [
    SAssign (TgName "values") (EDict [((EStr "timestamp"), (EAttr (EName "record") "curtime")); ((EStr "interval"), (EAttr (EName "record") "interval")); ((EStr "page_size"), (EAttr (EName "header") "pagesize")); ((EStr "phys_mem"), (EAttr (EAttr (EName "sstat") "mem") "physmem")); ((EStr "free_mem"), (EAttr (EAttr (EName "sstat") "mem") "freemem")); ((EStr "page_cache"), (EAttr (EAttr (EName "sstat") "mem") "cachemem")); ((EStr "buffer_cache"), (EAttr (EAttr (EName "sstat") "mem") "buffermem")); ((EStr "slab"), (EAttr (EAttr (EName "sstat") "mem") "slabmem")); ((EStr "dirty_pages"), (EAttr (EAttr (EName "sstat") "mem") "cachedrt"))]);
    SYield (EName "values")].

(** atoparser/parsers/atop_1_26.py:178-200 *)
Definition p_parse_NETL : fundef :=
  mkFun [("header", None); ("record", None); ("sstat", None); ("tstats", None)] true
    [
    SFor (TgName "interface") (EAttr (EAttr (EName "sstat") "intf") "intf") [
      SIf (ENot (EAttr (EName "interface") "name")) [
        SBreak] [];
      SAssign (TgName "values") (EDict [((EStr "timestamp"), (EAttr (EName "record") "curtime")); ((EStr "interval"), (EAttr (EName "record") "interval")); ((EStr "name"), (ECall (EAttr (EAttr (EName "interface") "name") "decode") [] [])); ((EStr "pkt_received"), (EAttr (EName "interface") "rpack")); ((EStr "byte_received"), (EAttr (EName "interface") "rbyte")); ((EStr "pkt_transmitted"), (EAttr (EName "interface") "spack")); ((EStr "bytes_transmitted"), (EAttr (EName "interface") "sbyte")); ((EStr "speed"), (EAttr (EName "interface") "speed")); ((EStr "duplex"), (ECall (EAttr (EName "int") "from_bytes") [(EAttr (EName "interface") "duplex")] [("byteorder", (EStr "big"))]))]);
      SYield (EName "values")]].

(** atoparser/parsers/atop_1_26.py:203-223 *)
Definition p_parse_NETU : fundef :=
  mkFun [("header", None); ("record", None); ("sstat", None); ("tstats", None)] true
    [
    SAssign (TgName "values") (EDict [((EStr "timestamp"), (EAttr (EName "record") "curtime")); ((EStr "interval"), (EAttr (EName "record") "interval")); ((EStr "name"), (EStr "upper")); ((EStr "tcp_pkt_received"), (EAttr (EAttr (EAttr (EName "sstat") "net") "tcp") "InSegs")); ((EStr "tcp_pkt_transmitted"), (EAttr (EAttr (EAttr (EName "sstat") "net") "tcp") "OutSegs")); ((EStr "udp_pkt_received"), (EBin OpAdd (EAttr (EAttr (EAttr (EName "sstat") "net") "udpv4") "InDatagrams") (EAttr (EAttr (EAttr (EName "sstat") "net") "udpv6") "Udp6InDatagrams"))); ((EStr "udp_pkt_transmitted"), (EBin OpAdd (EAttr (EAttr (EAttr (EName "sstat") "net") "udpv4") "OutDatagrams") (EAttr (EAttr (EAttr (EName "sstat") "net") "udpv6") "Udp6OutDatagrams"))); ((EStr "ip_pkt_received"), (EBin OpAdd (EAttr (EAttr (EAttr (EName "sstat") "net") "ipv4") "InReceives") (EAttr (EAttr (EAttr (EName "sstat") "net") "ipv6") "Ip6InReceives"))); ((EStr "ip_pkt_transmitted"), (EBin OpAdd (EAttr (EAttr (EAttr (EName "sstat") "net") "ipv4") "OutRequests") (EAttr (EAttr (EAttr (EName "sstat") "net") "ipv6") "Ip6OutRequests"))); ((EStr "ip_pkt_delivered"), (EBin OpAdd (EAttr (EAttr (EAttr (EName "sstat") "net") "ipv4") "InDelivers") (EAttr (EAttr (EAttr (EName "sstat") "net") "ipv6") "Ip6InDelivers"))); ((EStr "ip_pkt_forwarded"), (EBin OpAdd (EAttr (EAttr (EAttr (EName "sstat") "net") "ipv4") "ForwDatagrams") (EAttr (EAttr (EAttr (EName "sstat") "net") "ipv6") "Ip6OutForwDatagrams")))]);
    SYield (EName "values")].

(** atoparser/parsers/atop_1_26.py:226-242 *)
Definition p_parse_PAG : fundef :=
  mkFun [("header", None); ("record", None); ("sstat", None); ("tstats", None)] true
    [
    SAssign (TgName "values") (EDict [((EStr "timestamp"), (EAttr (EName "record") "curtime")); ((EStr "interval"), (EAttr (EName "record") "interval")); ((EStr "page_size"), (EAttr (EName "header") "pagesize")); ((EStr "page_scans"), (EAttr (EAttr (EName "sstat") "mem") "pgscans")); ((EStr "alloc_stalls"), (EAttr (EAttr (EName "sstat") "mem") "allocstall")); ((EStr "swapins"), (EAttr (EAttr (EName "sstat") "mem") "swins")); ((EStr "swapouts"), (EAttr (EAttr (EName "sstat") "mem") "swouts"))]);
    SYield (EName "values")].

(** atoparser/parsers/atop_1_26.py:245-269 *)
Definition p_parse_PRC : fundef :=
  mkFun [("header", None); ("record", None); ("sstat", None); ("tstats", None)] true
    [
    SFor (TgName "stat") (EName "tstats") [
      SAssign (TgName "values") (EDict [((EStr "timestamp"), (EAttr (EName "record") "curtime")); ((EStr "interval"), (EAttr (EName "record") "interval")); ((EStr "pid"), (EAttr (EAttr (EName "stat") "gen") "pid")); ((EStr "name"), (ECall (EAttr (EAttr (EAttr (EName "stat") "gen") "name") "decode") [] [])); ((EStr "state"), (ECall (EAttr (EAttr (EAttr (EName "stat") "gen") "state") "decode") [] [])); ((EStr "ticks"), (EAttr (EName "header") "hertz")); ((EStr "user_consumption"), (EAttr (EAttr (EName "stat") "cpu") "utime")); ((EStr "system_consumption"), (EAttr (EAttr (EName "stat") "cpu") "stime")); ((EStr "nice"), (EAttr (EAttr (EName "stat") "cpu") "nice")); ((EStr "priority"), (EAttr (EAttr (EName "stat") "cpu") "prio")); ((EStr "priority_realtime"), (EAttr (EAttr (EName "stat") "cpu") "rtprio")); ((EStr "policy"), (EAttr (EAttr (EName "stat") "cpu") "policy")); ((EStr "cpu"), (EAttr (EAttr (EName "stat") "cpu") "curcpu")); ((EStr "sleep"), (EAttr (EAttr (EName "stat") "cpu") "sleepavg"))]);
      SYield (EName "values")]].

(** atoparser/parsers/atop_1_26.py:272-294 *)
Definition p_parse_PRD : fundef :=
  mkFun [("header", None); ("record", None); ("sstat", None); ("tstats", None)] true
    [
    SFor (TgName "stat") (EName "tstats") [
      SAssign (TgName "values") (EDict [((EStr "timestamp"), (EAttr (EName "record") "curtime")); ((EStr "interval"), (EAttr (EName "record") "interval")); ((EStr "pid"), (EAttr (EAttr (EName "stat") "gen") "pid")); ((EStr "name"), (ECall (EAttr (EAttr (EAttr (EName "stat") "gen") "name") "decode") [] [])); ((EStr "state"), (ECall (EAttr (EAttr (EAttr (EName "stat") "gen") "state") "decode") [] [])); ((EStr "kernel_patch"), (EIf (EBin OpBitAnd (EAttr (EName "header") "supportflags") (EAttr (EName "atop_1_26") "PATCHSTAT")) (EStr "y") (EStr "n"))); ((EStr "standard_io"), (EIf (EBin OpBitAnd (EAttr (EName "header") "supportflags") (EAttr (EName "atop_1_26") "IOSTAT")) (EStr "y") (EStr "n"))); ((EStr "reads"), (EAttr (EAttr (EName "stat") "dsk") "rio")); ((EStr "read_sectors"), (EAttr (EAttr (EName "stat") "dsk") "rsz")); ((EStr "writes"), (EAttr (EAttr (EName "stat") "dsk") "wio")); ((EStr "written_sectors"), (EAttr (EAttr (EName "stat") "dsk") "wsz")); ((EStr "cancelled_sector_writes"), (EAttr (EAttr (EName "stat") "dsk") "cwsz"))]);
      SYield (EName "values")]].

(** atoparser/parsers/atop_1_26.py:297-330 *)
Definition p_parse_PRG : fundef :=
  mkFun [("header", None); ("record", None); ("sstat", None); ("tstats", None)] true
    [
    SFor (TgName "stat") (EName "tstats") [
      SAssign (TgName "values") (EDict [((EStr "timestamp"), (EAttr (EName "record") "curtime")); ((EStr "interval"), (EAttr (EName "record") "interval")); ((EStr "pid"), (EAttr (EAttr (EName "stat") "gen") "pid")); ((EStr "name"), (ECall (EAttr (EAttr (EAttr (EName "stat") "gen") "name") "decode") [] [])); ((EStr "state"), (ECall (EAttr (EAttr (EAttr (EName "stat") "gen") "state") "decode") [] [])); ((EStr "real_uid"), (EAttr (EAttr (EName "stat") "gen") "ruid")); ((EStr "real_gid"), (EAttr (EAttr (EName "stat") "gen") "rgid")); ((EStr "tgid"), (EAttr (EAttr (EName "stat") "gen") "pid")); ((EStr "threads"), (EAttr (EAttr (EName "stat") "gen") "nthr")); ((EStr "exit_code"), (EAttr (EAttr (EName "stat") "gen") "excode")); ((EStr "start_time"), (EAttr (EAttr (EName "stat") "gen") "btime")); ((EStr "cmd"), (ECall (EAttr (EAttr (EAttr (EName "stat") "gen") "cmdline") "decode") [] [])); ((EStr "ppid"), (EAttr (EAttr (EName "stat") "gen") "ppid")); ((EStr "running_threads"), (EAttr (EAttr (EName "stat") "gen") "nthrrun")); ((EStr "sleeping_threads"), (EAttr (EAttr (EName "stat") "gen") "nthrslpi")); ((EStr "dead_threads"), (EAttr (EAttr (EName "stat") "gen") "nthrslpu")); ((EStr "effective_uid"), (EAttr (EAttr (EName "stat") "gen") "euid")); ((EStr "effective_gid"), (EAttr (EAttr (EName "stat") "gen") "egid")); ((EStr "saved_uid"), (EAttr (EAttr (EName "stat") "gen") "suid")); ((EStr "saved_gid"), (EAttr (EAttr (EName "stat") "gen") "sgid")); ((EStr "filesystem_uid"), (EAttr (EAttr (EName "stat") "gen") "fsuid")); ((EStr "filesystem_gid"), (EAttr (EAttr (EName "stat") "gen") "fsgid")); ((EStr "elapsed_time"), (EAttr (EAttr (EName "stat") "gen") "elaps"))]);
      SYield (EName "values")]].

(** atoparser/parsers/atop_1_26.py:333-356 *)
Definition p_parse_PRM : fundef :=
  mkFun [("header", None); ("record", None); ("sstat", None); ("tstats", None)] true
    [
    SFor (TgName "stat") (EName "tstats") [
      SAssign (TgName "values") (EDict [((EStr "timestamp"), (EAttr (EName "record") "curtime")); ((EStr "interval"), (EAttr (EName "record") "interval")); ((EStr "pid"), (EAttr (EAttr (EName "stat") "gen") "pid")); ((EStr "name"), (ECall (EAttr (EAttr (EAttr (EName "stat") "gen") "name") "decode") [] [])); ((EStr "state"), (ECall (EAttr (EAttr (EAttr (EName "stat") "gen") "state") "decode") [] [])); ((EStr "page"), (EAttr (EName "header") "pagesize")); ((EStr "vsize"), (EBin OpMul (EAttr (EAttr (EName "stat") "mem") "vmem") (EInt 1024))); ((EStr "rsize"), (EBin OpMul (EAttr (EAttr (EName "stat") "mem") "rmem") (EInt 1024))); ((EStr "ssize"), (EBin OpMul (EAttr (EAttr (EName "stat") "mem") "shtext") (EInt 1024))); ((EStr "vgrowth"), (EBin OpMul (EAttr (EAttr (EName "stat") "mem") "vgrow") (EInt 1024))); ((EStr "rgrowth"), (EBin OpMul (EAttr (EAttr (EName "stat") "mem") "rgrow") (EInt 1024))); ((EStr "minor_faults"), (EAttr (EAttr (EName "stat") "mem") "minflt")); ((EStr "major_faults"), (EAttr (EAttr (EName "stat") "mem") "majflt"))]);
      SYield (EName "values")]].

(** atoparser/parsers/atop_1_26.py:359-385 *)
Definition p_parse_PRN : fundef :=
  mkFun [("header", None); ("record", None); ("sstat", None); ("tstats", None)] true
    [
    SFor (TgName "stat") (EName "tstats") [
      SAssign (TgName "values") (EDict [((EStr "timestamp"), (EAttr (EName "record") "curtime")); ((EStr "interval"), (EAttr (EName "record") "interval")); ((EStr "pid"), (EAttr (EAttr (EName "stat") "gen") "pid")); ((EStr "name"), (ECall (EAttr (EAttr (EAttr (EName "stat") "gen") "name") "decode") [] [])); ((EStr "state"), (ECall (EAttr (EAttr (EAttr (EName "stat") "gen") "state") "decode") [] [])); ((EStr "kernel_patch"), (EIf (EBin OpBitAnd (EAttr (EName "header") "supportflags") (EAttr (EName "atop_1_26") "PATCHSTAT")) (EStr "y") (EStr "n"))); ((EStr "tcp_transmitted"), (EAttr (EAttr (EName "stat") "net") "tcpsnd")); ((EStr "tcp_transmitted_size"), (EAttr (EAttr (EName "stat") "net") "tcpssz")); ((EStr "tcp_received"), (EAttr (EAttr (EName "stat") "net") "tcprcv")); ((EStr "tcp_received_size"), (EAttr (EAttr (EName "stat") "net") "tcprsz")); ((EStr "udp_transmitted"), (EAttr (EAttr (EName "stat") "net") "udpsnd")); ((EStr "udp_transmitted_size"), (EAttr (EAttr (EName "stat") "net") "udpssz")); ((EStr "udp_received"), (EAttr (EAttr (EName "stat") "net") "udprcv")); ((EStr "udp_received_size"), (EAttr (EAttr (EName "stat") "net") "udprsz")); ((EStr "raw_transmitted"), (EAttr (EAttr (EName "stat") "net") "rawsnd")); ((EStr "raw_received"), (EAttr (EAttr (EName "stat") "net") "rawrcv"))]);
      SYield (EName "values")]].

(** atoparser/parsers/atop_1_26.py:388-404 *)
Definition p_parse_SWP : fundef :=
  mkFun [("header", None); ("record", None); ("sstat", None); ("tstats", None)] true
    [
    SAssign (TgName "values") (EDict [((EStr "timestamp"), (EAttr (EName "record") "curtime")); ((EStr "interval"), (EAttr (EName "record") "interval")); ((EStr "page_size"), (EAttr (EName "header") "pagesize")); ((EStr "swap"), (EAttr (EAttr (EName "sstat") "mem") "totswap")); ((EStr "free_swap"), (EAttr (EAttr (EName "sstat") "mem") "freeswap")); ((EStr "committed_space"), (EAttr (EAttr (EName "sstat") "mem") "committed")); ((EStr "committed_limit"), (EAttr (EAttr (EName "sstat") "mem") "commitlim"))]);
    SYield (EName "values")].

(** atoparser/parsers/atop_1_26.py *)
Definition p_module : pymodule :=
  mkModule
    [("utils", ("atoparser", Some "utils")); ("atop_1_26", ("atoparser.structs", Some "atop_1_26"))]
    []
    [("parse_cpu", p_parse_cpu); ("parse_CPL", p_parse_CPL); ("parse_CPU", p_parse_CPU); ("parse_DSK", p_parse_DSK); ("parse_LVM", p_parse_LVM); ("parse_MDD", p_parse_MDD); ("parse_MEM", p_parse_MEM); ("parse_NETL", p_parse_NETL); ("parse_NETU", p_parse_NETU); ("parse_PAG", p_parse_PAG); ("parse_PRC", p_parse_PRC); ("parse_PRD", p_parse_PRD); ("parse_PRG", p_parse_PRG); ("parse_PRM", p_parse_PRM); ("parse_PRN", p_parse_PRN); ("parse_SWP", p_parse_SWP)].

(** atoparser/__init__.py:17-17 *)
Definition i_val_version : expr :=
  (EStr "3.3.1").

(** atoparser/__init__.py *)
Definition i_module : pymodule :=
  mkModule
    [("CGChainer", ("atoparser.utils", Some "CGChainer")); ("CStat", ("atoparser.utils", Some "CStat")); ("Header", ("atoparser.utils", Some "Header")); ("Record", ("atoparser.utils", Some "Record")); ("SStat", ("atoparser.utils", Some "SStat")); ("TStat", ("atoparser.utils", Some "TStat")); ("generate_statistics", ("atoparser.utils", Some "generate_statistics")); ("get_cstat", ("atoparser.utils", Some "get_cstat")); ("get_header", ("atoparser.utils", Some "get_header")); ("get_record", ("atoparser.utils", Some "get_record")); ("get_sstat", ("atoparser.utils", Some "get_sstat")); ("get_tstat", ("atoparser.utils", Some "get_tstat")); ("struct_to_dict", ("atoparser.utils", Some "struct_to_dict"))]
    [("__version__", i_val_version)]
    [].

(** atoparser/reader.py:12-12 *)
Definition r_val_PARSEABLES : expr :=
  (EList [(EStr "cpu"); (EStr "CPL"); (EStr "CPU"); (EStr "DSK"); (EStr "LVM"); (EStr "MDD"); (EStr "MEM"); (EStr "NETL"); (EStr "NETU"); (EStr "PAG"); (EStr "PRC"); (EStr "PRG"); (EStr "PRM"); (EStr "PRN"); (EStr "SWP")]).

(** atoparser/reader.py:13-15 *)
Definition r_val_PARSEABLE_MAP : expr :=
  (EDict [((EStr "1.26"), (EDictComp (EName "parseable") (ECall (EName "getattr") [(EName "atop_1_26"); (EFStr [(EStr "parse_"); (EName "parseable")])] []) "parseable" (EName "PARSEABLES")))]).

(** atoparser/reader.py:62-112 *)
Definition r_parse_file : fundef :=
  mkFun [("file", None); ("parseables", (Some ENone)); ("pretty_print", (Some (EBool true))); ("show_tstats", (Some (EBool false))); ("show_cstats", (Some (EBool false)))] false
    [
    SAssign (TgName "samples") (EList []);
    SAssign (TgName "opener") (EIf (ECmp OpNotIn (EStr ".gz") (EName "file")) (EName "open") (EAttr (EName "gzip") "open"));
    SWith (ECall (EName "opener") [(EName "file"); (EStr "rb")] []) "raw_file" [
      SAssign (TgName "header") (ECall (EAttr (EName "atoparser") "get_header") [(EName "raw_file")] []);
      SIf (EAnd (EName "parseables") (ECmp OpNotIn (EAttr (EName "header") "semantic_version") (EName "PARSEABLE_MAP"))) [
        SExpr (ECall (EAttr (EName "samples") "append") [(EDict [((EStr "error"), (EFStr [(EStr "Atop version "); (EAttr (EName "header") "semantic_version"); (EStr " does not support parseables, only full raw output.")])); ((EStr "file"), (EName "file"))])] [])] [
        SAssign (TgName "parsers") (ECall (EAttr (EName "PARSEABLE_MAP") "get") [(EAttr (EName "header") "semantic_version"); (ESub (EName "PARSEABLE_MAP") (EStr "1.26"))] []);
        SFor (TgTuple ["record"; "sstat"; "tstats"; "cgroups"]) (ECall (EAttr (EName "atoparser") "generate_statistics") [(EName "raw_file"); (EName "header")] [("raise_on_truncation", (EBool false))]) [
          SIf (EName "parseables") [
            SFor (TgName "parseable") (EName "parseables") [
              SFor (TgName "sample") (ECall (ESub (EName "parsers") (EName "parseable")) [(EName "header"); (EName "record"); (EName "sstat"); (EName "tstats")] []) [
                SAssign (TgSub (EName "sample") (EStr "parseable")) (EName "parseable");
                SExpr (ECall (EAttr (EName "samples") "append") [(EName "sample")] [])]]] [
            SAssign (TgName "converted") (EDict [((EStr "header"), (ECall (EAttr (EName "atoparser") "struct_to_dict") [(EName "header")] [])); ((EStr "record"), (ECall (EAttr (EName "atoparser") "struct_to_dict") [(EName "record")] [])); ((EStr "sstat"), (ECall (EAttr (EName "atoparser") "struct_to_dict") [(EName "sstat")] []))]);
            SIf (EName "show_tstats") [
              SAssign (TgSub (EName "converted") (EStr "tstat")) (EListComp (ECall (EAttr (EName "atoparser") "struct_to_dict") [(EName "stat")] []) "stat" (EName "tstats"))] [];
            SIf (EName "show_cstats") [
              SAssign (TgSub (EName "converted") (EStr "cgroup")) (EListComp (ECall (EAttr (EName "atoparser") "struct_to_dict") [(EName "stat")] []) "stat" (EName "cgroups"))] [];
            SExpr (ECall (EAttr (EName "samples") "append") [(EName "converted")] [])]]]];
    SExpr (ECall (EName "print") [(ECall (EAttr (EName "json") "dumps") [(EName "samples")] [("indent", (EIf (EName "pretty_print") (EInt 2) ENone))])] [])].

(** atoparser/reader.py:115-126 *)
Definition r_main : fundef :=
  mkFun [] false
    [
    SAssign (TgName "args") (ECall (EName "parse_args") [] []);
    SFor (TgName "file") (EAttr (EName "args") "files") [
      SExpr (ECall (EName "parse_file") [(EName "file"); (EAttr (EName "args") "parseables"); (EAttr (EName "args") "pretty_print"); (EAttr (EName "args") "show_tstats"); (EAttr (EName "args") "show_cstats")] [])]].

(** atoparser/reader.py *)
Definition r_module : pymodule :=
  mkModule
    [("argparse", ("argparse", None)); ("gzip", ("gzip", None)); ("json", ("json", None)); ("atoparser", ("atoparser", None)); ("atop_1_26", ("atoparser.parsers", Some "atop_1_26"))]
    [("PARSEABLES", r_val_PARSEABLES); ("PARSEABLE_MAP", r_val_PARSEABLE_MAP)]
    [("parse_file", r_parse_file); ("main", r_main)].

(** The modules, by name. *)
Definition program : list (string * pymodule) :=
  [("atoparser.structs.shared", ss_module); ("atoparser.structs.atop_2_11", sc_module);
   ("atoparser.utils", u_module); ("atoparser.parsers.atop_1_26", p_module);
   ("atoparser", i_module); ("atoparser.reader", r_module)].
