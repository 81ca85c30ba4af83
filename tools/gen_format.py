#!/usr/bin/env python3
"""Write rocq/theories/SpecFormat_<version>.v: where each field of each struct lies.

The struct definitions in /repo/atoparser/structs are read as text (ast; nothing there is imported
or executed), rebuilt as structures of this interpreter's own ctypes, and the byte offset of every
scalar is asked of ctypes.  Independent of gen_structs.py and of the layout computed in Coq.
Usage: gen_format.py /repo/atoparser/structs /verif/rocq/theories
"""
import ast, ctypes, os, sys

VERS = ["1_26", "2_3", "2_4", "2_5", "2_6", "2_7", "2_8", "2_9", "2_10", "2_11", "2_12"]
KIND = {ctypes.c_uint8: "U8", ctypes.c_short: "I16", ctypes.c_ushort: "U16", ctypes.c_int: "I32",
        ctypes.c_uint: "U32", ctypes.c_long: "I64", ctypes.c_ulong: "U64", ctypes.c_float: "F32",
        ctypes.c_char: "Chr"}


class Src:
    """Values named in one module."""

    def __init__(self, path, others):
        self.env = {}
        self.others = others
        for s in ast.parse(open(path).read()).body:
            if isinstance(s, ast.ImportFrom) and s.module:
                m = s.module.split(".")[-1]
                for a in s.names:
                    n = a.asname or a.name
                    if m in others and a.name in others[m].env:
                        self.env[n] = others[m].env[a.name]
            elif isinstance(s, ast.Assign):
                try:
                    self.env[s.targets[0].id] = self.ev(s.value)
                except KeyError:
                    pass
            elif isinstance(s, ast.ClassDef):
                self.cls(s)

    def ev(self, e):
        if isinstance(e, ast.Constant):
            return e.value
        if isinstance(e, ast.Name):
            return self.env[e.id]
        if isinstance(e, ast.Attribute):
            if isinstance(e.value, ast.Name) and e.value.id == "ctypes":
                return getattr(ctypes, e.attr)
            if isinstance(e.value, ast.Name) and e.value.id in self.others:
                return self.others[e.value.id].env[e.attr]
            return getattr(self.ev(e.value), e.attr)
        if isinstance(e, ast.BinOp):
            a, b = self.ev(e.left), self.ev(e.right)
            return a * b if isinstance(e.op, ast.Mult) else a + b
        if isinstance(e, (ast.List, ast.Tuple)):
            return [self.ev(x) for x in e.elts]
        if isinstance(e, ast.Dict):
            return {self.ev(k): self.ev(v) for k, v in zip(e.keys, e.values)}
        raise KeyError(ast.dump(e))

    def cls(self, node):
        if node.name == "CGChainer":
            return
        at = {}
        for b in node.bases:
            try:
                base = self.ev(b)
                if isinstance(base, type) and issubclass(base, ctypes.Structure) and base is not ctypes.Structure:
                    at["_fields_"] = base._fields_
            except KeyError:
                pass
        for s in node.body:
            if isinstance(s, ast.Assign):
                try:
                    at[s.targets[0].id] = self.ev(s.value)
                except KeyError:
                    pass
        if "_fields_" in at:
            at["_fields_"] = [tuple(x) for x in at["_fields_"]]
            self.env[node.name] = type(node.name, (ctypes.Structure,), at)


def rows(t, path, off, dims, out):
    if t in KIND:
        out.append((path, off, KIND[t], dims))
    elif issubclass(t, ctypes.Array):
        raise SystemExit("array of arrays")
    else:
        lim = getattr(t, "fields_limiters", {})
        for n, ft in t._fields_:
            o = off + getattr(t, n).offset
            if isinstance(ft, type) and issubclass(ft, ctypes.Array):
                e = ft._type_
                if e is ctypes.c_char:
                    out.append((path + [n], o, f"Text {ft._length_}", dims))
                else:
                    c = None
                    if n in lim:
                        cn = lim[n]
                        ct = dict(t._fields_)[cn]
                        c = (off + getattr(t, cn).offset, KIND[ct])
                    rows(e, path + [n, "*"], o, dims + [(ft._length_, ctypes.sizeof(e), c)], out)
            else:
                rows(ft, path + [n], o, dims, out)


def coq_row(r):
    path, off, kind, dims = r
    p = "; ".join("E" if x == "*" else f'F "{x}"' for x in path)
    ds = "; ".join(f"D {n} {sz} " + (f"(Some ({c[0]}, {c[1]}))" if c else "None") for n, sz, c in dims)
    k = kind if " " not in kind else f"({kind})"
    return f"   R [{p}] {off} {k} [{ds}]"


def main(src, dst):
    mods = {}
    for v in ["shared"] + ["atop_" + v for v in VERS]:
        mods[v] = Src(os.path.join(src, v + ".py"), mods)
    defs, cases, seen = [], {}, {}
    for v in VERS:
        h = mods["atop_" + v].env["Header"]
        for nm, t in [("Header", h), ("Record", h.Record), ("SStat", h.SStat), ("TStat", h.TStat), ("CStat", h.CStat)]:
            if t is None:
                continue
            out = []
            rows(t, [], 0, [], out)
            key = (nm, repr(out))
            if key not in seen:
                seen[key] = f"{nm.lower()}_{v}"
                defs.append(f"Definition {seen[key]} : list row := [\n" + ";\n".join(map(coq_row, out)) + "].")
            cases.setdefault(nm, []).append(f'("{v.replace("_", ".")}", {seen[key]})')
    with open(os.path.join(dst, "SpecFormatTables.v"), "w") as f:
        f.write("""(** * The rows of all versions (for C51)

    GENERATED by tools/gen_format.py, which asks CPython's ctypes for the offsets; do not edit. *)
From Coq Require Import List ZArith String.
From Verif Require Import SpecFormat.
Import ListNotations.
Local Open Scope Z_scope.
Local Open Scope string_scope.

""")
        f.write("\n\n".join(defs))
        f.write("\n\n(** The rows of a part of a log of the version with the given name. *)\n"
                "Definition format (p : part) (version : string) : list row :=\n  for_version version\n    match p with\n")
        for nm in cases:
            f.write(f"    | P{nm} => [" + "; ".join(cases[nm]) + "]\n")
        f.write("    end.\n")


if __name__ == "__main__":
    main(*sys.argv[1:])
