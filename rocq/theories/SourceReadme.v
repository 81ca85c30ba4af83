(** * The Python programs of /repo/README.md, as data: the modules they import, their statements

    Generated by tools/gen_source.py; do not edit. *)
From Coq Require Import List ZArith String.
From Verif Require Import PySyntax.
Import ListNotations.
Local Open Scope string_scope.
Local Open Scope Z_scope.

(** README.md:83-90 *)
Definition readme_1 : list string * list stmt :=
  (["atoparser"],
   [
     SWith (ECall (EName "open") [(EName "file"); (EStr "rb")] []) "raw_file" [
       SAssign (TgName "header") (ECall (EAttr (EName "atoparser") "get_header") [(EName "raw_file")] []);
       SFor (TgTuple ["record"; "sstat"; "tstats"; "cgroups"]) (ECall (EAttr (EName "atoparser") "generate_statistics") [(EName "raw_file"); (EName "header")] []) [
         SAssign (TgName "total_cycles") (EBin OpMul (EBin OpMul (EAttr (EName "record") "interval") (EAttr (EAttr (EName "sstat") "cpu") "nrcpu")) (EAttr (EName "header") "hertz"));
         SAssign (TgName "usage") (EBin OpSub (EInt 1) (EBin OpDiv (EAttr (EAttr (EAttr (EName "sstat") "cpu") "all") "itime") (EName "total_cycles")));
         SExpr (ECall (EName "print") [(EFStr [(EStr "CPU usage was "); (EFormat (EName "usage") ".02%")])] [])]]]).

(** README.md:95-100 *)
Definition readme_2 : list string * list stmt :=
  (["json"; "atoparser"],
   [
     SWith (ECall (EName "open") [(EName "file"); (EStr "rb")] []) "raw_file" [
       SAssign (TgName "header") (ECall (EAttr (EName "atoparser") "get_header") [(EName "raw_file")] []);
       SExpr (ECall (EName "print") [(ECall (EAttr (EName "json") "dumps") [(ECall (EAttr (EName "atoparser") "struct_to_dict") [(EName "header")] [])] [("indent", (EInt 2))])] [])]]).
