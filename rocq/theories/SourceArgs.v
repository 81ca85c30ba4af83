(** * parse_args of /repo/atoparser/reader.py, as data

    Generated by tools/gen_source.py; do not edit. *)
From Coq Require Import List ZArith String.
From Verif Require Import PySyntax.
Import ListNotations.
Local Open Scope string_scope.
Local Open Scope Z_scope.

(** atoparser/reader.py:18-59 *)
Definition r_parse_args : fundef :=
  mkFun [] false
    [
    SAssign (TgName "parser") (ECall (EAttr (EName "argparse") "ArgumentParser") [(EStr "Convert binary files into JSON output.")] []);
    SExpr (ECall (EAttr (EName "parser") "add_argument") [(EStr "files")] [("nargs", (EStr "+")); ("help", (EStr "Files to process. May be uncompressed or gzip compressed."))]);
    SExpr (ECall (EAttr (EName "parser") "add_argument") [(EStr "-P"); (EStr "--parseables")] [("nargs", (EStr "+")); ("choices", (EName "PARSEABLES")); ("metavar", (EStr "PARSEABLE")); ("help", (EStr "Display output in Atop ""parseable"" format, instead of full structs. See ""man atop"" for full details. e.g. ""CPU"", ""DSK"", etc."))]);
    SExpr (ECall (EAttr (EName "parser") "add_argument") [(EStr "-p"); (EStr "--pretty-print")] [("action", (EStr "store_true")); ("help", (EStr "Pretty print the JSON output with indentation."))]);
    SExpr (ECall (EAttr (EName "parser") "add_argument") [(EStr "--tstats")] [("dest", (EStr "show_tstats")); ("action", (EStr "store_true")); ("help", (EStr "Include TStats/PStats in output. Very verbose."))]);
    SExpr (ECall (EAttr (EName "parser") "add_argument") [(EStr "--cstats")] [("dest", (EStr "show_cstats")); ("action", (EStr "store_true")); ("help", (EStr "Include CGroup/CStats in output. Only available with Atop 2.11+ logs. Verbose."))]);
    SAssign (TgName "args") (ECall (EAttr (EName "parser") "parse_args") [] []);
    SReturn (EName "args")].
