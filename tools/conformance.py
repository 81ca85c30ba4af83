#!/usr/bin/env python3
"""A TEST of the model (not a proof): extract it to OCaml, run it on the sample logs that ship
with /repo, and compare what it prints with the values the project's own unit tests expect.

Nothing of /repo is imported or run: the expected values are read from the test modules as
literals (ast), the logs are read as data.  Needs a built /verif/rocq and ocamlfind + zarith.

    python3 tools/conformance.py [work directory]
"""
import ast
import json
import os
import resource
import subprocess
import sys

VERIF = os.path.dirname(os.path.dirname(os.path.abspath(__file__)))
TESTS = "/repo/atoparser/test"
WORK = sys.argv[1] if len(sys.argv) > 1 else "/tmp/conformance"

EXTRACT = r'''
From Coq Require Import Extraction ExtrOcamlBasic ExtrOcamlZBigInt ExtrOcamlNatInt ExtrOcamlString.
From Coq Require Import String Init.Byte List ZArith.
From Verif Require Import PyBase CTypes Model Parsers Json FloatRepr Inflate Gzip Reader.
Definition go (data : list byte) (gz : bool) (ps : list String.string) pretty st sc :=
  parse_file zdecompress (fun _ => Ok data) (fun l => l) (fun _ => ZlibError) repr32
    (if gz then text "a.gz"%string else text "a"%string) ps pretty st sc.
Extract Constant List.rev => "List.rev".
Extract Constant List.app => "List.append".
Extraction "model.ml" go byte_of.
'''
MAIN = r'''
open Model
let () =
  let file = Sys.argv.(1) and gz = Sys.argv.(2) = "1" and ps = Sys.argv.(3)
  and pretty = Sys.argv.(4) = "1" and st = Sys.argv.(5) = "1" and sc = Sys.argv.(6) = "1" in
  let ic = open_in_bin file in
  let n = in_channel_length ic in
  let s = really_input_string ic n in
  let data = List.init n (fun i -> byte_of (Big_int_Z.big_int_of_int (Char.code s.[i]))) in
  let expl s = List.init (String.length s) (String.get s) in
  let ps = if ps = "" then [] else List.map expl (String.split_on_char ',' ps) in
  match go data gz ps pretty st sc with
  | Ok t ->
      List.iter (fun z -> print_char (Char.chr (Big_int_Z.int_of_big_int z))) t; print_newline ()
  | Raise e ->
      print_endline (match e with
        | ZlibError -> "zlib.error" | ValueError _ -> "ValueError"
        | UnicodeDecodeError -> "UnicodeDecodeError" | _ -> "other exception")
'''


def build() -> None:
    os.makedirs(WORK, exist_ok=True)
    for name, src in (("Ext.v", EXTRACT), ("main.ml", MAIN)):
        with open(os.path.join(WORK, name), "w") as f:
            f.write(src)
    subprocess.run(["coqc", "-Q", os.path.join(VERIF, "rocq/theories"), "Verif", "Ext.v"],
                   cwd=WORK, check=True, capture_output=True)
    path = os.path.join(WORK, "model.ml")
    src = open(path).read()
    # the two library functions replaced by OCaml's are extracted as "let rec f = g"
    for g in ("List.rev", "List.append"):
        for f in ("rev", "rev0", "app", "app0"):
            src = src.replace(f"let rec {f} = {g}", f"let {f} = {g}")
    open(path, "w").write(src)
    subprocess.run(["ocamlfind", "ocamlopt", "-w", "-a", "-package", "zarith", "-linkpkg",
                    "model.mli", "model.ml", "main.ml", "-o", "run"], cwd=WORK, check=True)


def model(log: str, parseables: str = "", pretty: bool = False, st: bool = True, sc: bool = True) -> str:
    gz = "1" if ".gz" in log else "0"
    out = subprocess.run([os.path.join(WORK, "run"), log, gz, parseables, str(int(pretty)), str(int(st)),
                          str(int(sc))], capture_output=True, text=True, check=True,
                         preexec_fn=lambda: resource.setrlimit(resource.RLIMIT_STACK, (resource.RLIM_INFINITY,) * 2))
    return out.stdout[:-1]


class Lit(ast.NodeTransformer):
    """os.path.join(TEST_FILE_DIR, x) -> x; anything else that is not a literal -> None."""

    def visit_Call(self, node):
        f = node.func
        if isinstance(f, ast.Attribute) and f.attr == "join" and len(node.args) == 2:
            return node.args[1]
        return ast.Constant(None)

    def visit_Name(self, node):
        return ast.Constant(None)

    def visit_Attribute(self, node):
        return ast.Constant(None)

    def visit_Subscript(self, node):
        return ast.Constant(None)

    def visit_BinOp(self, node):
        return ast.Constant(None)


def cases(module: str) -> dict:
    tree = ast.parse(open(os.path.join(TESTS, module)).read())
    for node in tree.body:
        if isinstance(node, ast.Assign) and getattr(node.targets[0], "id", "") == "TEST_CASES":
            return ast.literal_eval(ast.fix_missing_locations(Lit().visit(node.value)))
    raise SystemExit("no TEST_CASES")


def inside(want, got, where) -> list[str]:
    """The differences of [got] from the part of it that [want] describes."""
    if isinstance(want, dict):
        if not isinstance(got, dict):
            return [f"{where}: not an object"]
        return [d for k, v in want.items()
                for d in ([f"{where}.{k}: missing"] if k not in got else inside(v, got[k], f"{where}.{k}"))]
    if isinstance(want, list):
        return [d for i, v in enumerate(want)
                for d in ([f"{where}[{i}]: missing"] if i >= len(got) else inside(v, got[i], f"{where}[{i}]"))]
    return [] if want == got else [f"{where}: expected {want!r}, got {got!r}"]


def main() -> None:
    build()
    bad, n = [], 0
    files = os.path.join(TESTS, "files")
    docs = {}
    for name in sorted(os.listdir(files)):
        path = os.path.join(files, name)
        for pretty in (False, True):
            for flags in (False, True):
                text = model(path, "", pretty, flags, flags)
                doc = json.loads(text)
                n += 1
                # json.dumps of what was printed is what was printed: layout, escapes, floats
                if json.dumps(doc, indent=2 if pretty else None) != text:
                    bad.append(f"{name}: not the text json.dumps gives")
                for sample in doc:
                    if ("tstat" in sample) != flags:
                        bad.append(f"{name}: tstat list")
        docs[name] = doc
    t = cases("test_atoparser.py")
    for kind, part in (("file_header", "header"), ("file_record", "record"), ("file_sstat", "sstat"),
                       ("file_tstat", "tstat"), ("file_cstat", "cgroup")):
        for version, case in t[kind].items():
            doc, want = docs[case["args"][0]], case["returns"]
            n += 1
            if want is None:
                if doc[-1].get(part):
                    bad.append(f"{kind} {version}: expected nothing")
                continue
            want = dict(want)
            want.pop("semantic_version", None)
            for index in ("sample_index", "record_index"):
                if index in want and want.pop(index) != len(doc) - 1:
                    bad.append(f"{kind} {version}: number of samples")
            got = doc[-1][part]
            for index in ("tstat_index", "cstat_index"):
                if index in want and want.pop(index) != len(got) - 1:
                    bad.append(f"{kind} {version}: number of entries")
            if isinstance(got, list):
                got = got[-1]
            bad += inside(want, got, f"{kind} {version}")
    for version, case in t["parseable"].items():
        log, names = case["args"][0], case["args"][1]
        want = dict(case["returns"])
        want.pop("sample_index")
        rows = json.loads(model(os.path.join(files, log), ",".join(names)))
        last = {}
        for row in rows:
            last[row.pop("parseable")] = row
        for name, row in want.items():
            n += 1
            if last.get(name) != row:
                bad.append(f"parseable {version} {name}: expected {row}, got {last.get(name)}")
    for title, case in cases("test_reader.py")["parse_file"].items():
        args = case["args"]
        out = model(os.path.join(files, args[0]), ",".join(args[1]) if len(args) > 1 else "", True, False, False)
        n += 1
        tail = out.strip().splitlines()[-10:]
        tail = ['    "file": "replaced_by_test"' if '"file":' in line else line for line in tail]
        if tail != case["returns"]["stdout"]:
            bad.append(f"parse_file {title}: {tail}")
    print(f"{n} comparisons, {len(bad)} differences")
    for b in bad:
        print(" ", b)


main()
