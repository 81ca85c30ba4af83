#!/usr/bin/env python3
"""Transcribe the struct tables of /repo/atoparser/structs/*.py into Coq.

Reads the files as text (ast only, nothing is imported or executed) and writes
rocq/theories/S_<version>.v.  Usage: gen_structs.py /repo/atoparser/structs /verif/rocq/theories
"""
import ast, os, sys

VERS = ["1_26", "2_3", "2_4", "2_5", "2_6", "2_7", "2_8", "2_9", "2_10", "2_11", "2_12"]
BASE = {"c_char": "TChar", "c_uint8": "TInt false 1", "c_short": "TInt true 2", "c_ushort": "TInt false 2",
        "c_int": "TInt true 4", "c_int32": "TInt true 4", "c_uint": "TInt false 4", "c_long": "TInt true 8",
        "c_ulong": "TInt false 8", "c_longlong": "TInt true 8", "c_float": "TFloat"}


def num(e, pre):
    if isinstance(e, ast.Constant):
        return str(e.value)
    if isinstance(e, ast.Name):
        return pre + e.id
    if isinstance(e, ast.BinOp) and isinstance(e.op, ast.Add):
        return f"({num(e.left, pre)} + {num(e.right, pre)})"
    raise SystemExit(f"num {ast.dump(e)}")


def typ(e, pre):
    if isinstance(e, ast.Attribute) and e.value.id == "ctypes":
        return f"({BASE[e.attr]})"
    if isinstance(e, ast.Name):
        return ("sh_" + e.id) if e.id in ("time_t", "count_t", "off_t", "pid_t", "UTSName") else pre + e.id
    if isinstance(e, ast.BinOp) and isinstance(e.op, ast.Mult):
        return f"(TArr {typ(e.left, pre)} {num(e.right, pre)})"
    raise SystemExit(f"typ {ast.dump(e)}")


def fields(lst, pre):
    out = []
    for el in lst.elts:
        n, t = el.elts
        out.append(f'    ("{n.value}", {typ(t, pre)})')
    return "[\n" + ";\n".join(out) + "\n  ]"


def emit_class(node, mod, pre, out):
    attrs = {}
    for s in node.body:
        if isinstance(s, ast.Assign):
            attrs[s.targets[0].id] = s.value
    bases = [ast.unparse(b) for b in node.bases]
    cite = f"structs/{mod}.py:{node.lineno}-{node.end_lineno}"
    if node.name == "CGChainer":
        return
    if node.name == "Header":
        parent = [b for b in bases if b.startswith("atop_")]
        if "_fields_" in attrs and isinstance(attrs["_fields_"], ast.List):
            fs = fields(attrs["_fields_"], pre)
            out.append(f"(** {cite} class Header: the struct part. *)")
            out.append(f"Definition {pre}Header_fields : list (string * ctype) := {fs}.")
        else:
            src = parent[0] if parent else ast.unparse(attrs["_fields_"]).replace("._fields_", "")
            how = "fields inherited from the base class" if parent else "fields assigned from"
            out.append(f"(** {cite} class Header: {how} {src}. *)")
            out.append(f"Definition {pre}Header_fields : list (string * ctype) := a{src.split('.')[0][5:]}_Header_fields.")
        out.append(f'Definition {pre}Header : ctype := TStruct "{mod}.Header" {pre}Header_fields [].')
        cs = attrs["CStat"]
        none = isinstance(cs, ast.Constant) and cs.value is None
        cg = attrs["CGChainer"]
        assert none == (isinstance(cg, ast.Constant) and cg.value is None)
        for a in ("Record", "SStat", "TStat"):
            assert isinstance(attrs[a], ast.Name)
        out.append(f"(** {cite}: the class attributes. *)")
        out.append(f'Definition {pre}class : hclass := {{|\n  hc_version := "{attrs["supported_version"].value}";\n'
                   f'  hc_header := {pre}Header;\n  hc_record := {pre}{attrs["Record"].id};\n  hc_sstat := {pre}{attrs["SStat"].id};\n'
                   f'  hc_tstat := {pre}{attrs["TStat"].id};\n  hc_cstat := {"None" if none else "Some " + pre + cs.id} |}}.')
        return
    lims = "[]"
    if "fields_limiters" in attrs:
        d = attrs["fields_limiters"]
        lims = "[" + "; ".join(f'("{k.value}", "{v.value}")' for k, v in zip(d.keys, d.values)) + "]"
    out.append(f"(** {cite} class {node.name}. *)")
    out.append(f'Definition {pre}{node.name} : ctype := TStruct "{mod}.{node.name}" {fields(attrs["_fields_"], pre)} {lims}.')


HEAD = """(** * Struct tables of atoparser/structs/{mod}.py

    GENERATED by tools/gen_structs.py from the text of that file; do not edit. *)
From Coq Require Import List ZArith String.
From Verif Require Import PyBase CTypes{imports}.
Import ListNotations.
Local Open Scope Z_scope.
Local Open Scope string_scope.
"""


def main(src, dst):
    # shared.py
    tree = ast.parse(open(os.path.join(src, "shared.py")).read())
    out = [HEAD.format(mod="shared", imports="")]
    for node in tree.body:
        if isinstance(node, ast.Assign):
            out.append(f"(** structs/shared.py:{node.lineno} *)")
            out.append(f"Definition sh_{node.targets[0].id} : ctype := {typ(node.value, 'sh_')}.")
        elif isinstance(node, ast.ClassDef) and node.name == "UTSName":
            emit_class(node, "shared", "sh_", out)
    out.append("""(** The attributes of a Header class (shared.py:34-39 and the end of every struct file):
    its own struct and the struct classes used to read the rest of the file.  [hc_cstat = None]
    is [CStat = None] (and then [CGChainer = None] too). *)
Record hclass := mkHClass {
  hc_version : string; hc_header : ctype; hc_record : ctype; hc_sstat : ctype;
  hc_tstat : ctype; hc_cstat : option ctype }.""")
    open(os.path.join(dst, "S_shared.v"), "w").write("\n".join(out) + "\n")
    for v in VERS:
        mod = "atop_" + v
        pre = f"a{v}_"
        text = open(os.path.join(src, mod + ".py")).read()
        tree = ast.parse(text)
        imps = [VERS[i] for i in range(len(VERS)) if any(
            isinstance(n, ast.ImportFrom) and n.module == "atoparser.structs" and n.names[0].name == "atop_" + VERS[i]
            for n in tree.body)]
        out = [HEAD.format(mod=mod, imports="".join([" S_shared"] + [" S_" + i for i in imps]))]
        for node in tree.body:
            if isinstance(node, ast.Assign):
                name = node.targets[0].id
                val = node.value
                if isinstance(val, ast.Constant):
                    out.append(f"Definition {pre}{name} : Z := {val.value}. (* structs/{mod}.py:{node.lineno} *)")
                elif isinstance(val, ast.Attribute):
                    if val.attr == "CGChainer":
                        continue
                    out.append(f"Definition {pre}{name} : ctype := a{val.value.id[5:]}_{val.attr}. (* structs/{mod}.py:{node.lineno} *)")
                elif isinstance(val, ast.Name):
                    out.append(f"Definition {pre}{name} : ctype := {pre}{val.id}. (* structs/{mod}.py:{node.lineno} *)")
                else:
                    raise SystemExit(ast.dump(node))
            elif isinstance(node, ast.ClassDef):
                emit_class(node, mod, pre, out)
            elif isinstance(node, (ast.Import, ast.ImportFrom, ast.Expr)):
                pass
            else:
                raise SystemExit(ast.dump(node))
        open(os.path.join(dst, f"S_{v}.v"), "w").write("\n".join(out) + "\n")


main(sys.argv[1], sys.argv[2])
