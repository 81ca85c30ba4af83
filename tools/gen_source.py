#!/usr/bin/env python3
"""Transcribe the code of /repo/atoparser into Coq terms of rocq/theories/PySyntax.v.

Reads the files as text (ast only, nothing is imported or executed) and writes
rocq/theories/Source.v.  Usage: gen_source.py /repo /verif/rocq/theories

Dropped in Source.v: docstrings, comments, annotations, decorators other than @property (none occur), the
`if __name__ == "__main__"` guard, reader.parse_args (argparse calls; it goes to SourceArgs.v) and the
six typing.Union aliases of utils.py.  SourcePackage.v has the top-level statements of all modules with
annotations, aliases and guard.  Any other construct that PySyntax.v lacks is an error.
"""
import ast, os, sys

repo, out = sys.argv[1], sys.argv[2]
CMP = {ast.Eq: "OpEq", ast.NotEq: "OpNe", ast.Lt: "OpLt", ast.LtE: "OpLe", ast.Gt: "OpGt", ast.GtE: "OpGe",
       ast.In: "OpIn", ast.NotIn: "OpNotIn", ast.Is: "OpIs", ast.IsNot: "OpIsNot"}
BIN = {ast.Add: "OpAdd", ast.Sub: "OpSub", ast.Mult: "OpMul", ast.Div: "OpDiv", ast.RShift: "OpRShift", ast.LShift: "OpLShift",
       ast.BitAnd: "OpBitAnd", ast.BitOr: "OpBitOr"}


def q(s):
    assert all(32 <= ord(c) < 127 for c in s), s
    return '"' + s.replace('"', '""') + '"'


def lst(items):
    return "[" + "; ".join(items) + "]"


def z(n):
    return f"({n})" if n < 0 else str(n)


def comp(e):
    (g,) = e.generators
    assert not g.ifs and not g.is_async and isinstance(g.target, ast.Name)
    return f"{q(g.target.id)} {ex(g.iter)}"


def ex(e):
    t = type(e)
    if t is ast.Name:
        return f"(EName {q(e.id)})"
    if t is ast.Constant:
        v = e.value
        if v is None:
            return "ENone"
        if isinstance(v, bool):
            return f"(EBool {str(v).lower()})"
        if isinstance(v, int):
            return f"(EInt {z(v)})"
        if isinstance(v, str):
            return f"(EStr {q(v)})"
    if t is ast.Attribute:
        return f"(EAttr {ex(e.value)} {q(e.attr)})"
    if t is ast.Call:
        assert not any(isinstance(a, ast.Starred) for a in e.args) and all(k.arg for k in e.keywords)
        kws = lst(f"({q(k.arg)}, {ex(k.value)})" for k in e.keywords)
        return f"(ECall {ex(e.func)} {lst(map(ex, e.args))} {kws})"
    if t is ast.Subscript:
        if isinstance(e.slice, ast.Slice):
            assert e.slice.step is None
            o = lambda x: f"(Some {ex(x)})" if x is not None else "None"
            return f"(ESlice {ex(e.value)} {o(e.slice.lower)} {o(e.slice.upper)})"
        return f"(ESub {ex(e.value)} {ex(e.slice)})"
    if t is ast.Compare:
        assert len(e.ops) == 1
        return f"(ECmp {CMP[type(e.ops[0])]} {ex(e.left)} {ex(e.comparators[0])})"
    if t is ast.BoolOp:
        c = "EAnd" if isinstance(e.op, ast.And) else "EOr"
        r = ex(e.values[-1])
        for v in reversed(e.values[:-1]):
            r = f"({c} {ex(v)} {r})"
        return r
    if t is ast.UnaryOp and isinstance(e.op, ast.Not):
        return f"(ENot {ex(e.operand)})"
    if t is ast.UnaryOp and isinstance(e.op, ast.USub):
        return f"(ENeg {ex(e.operand)})"
    if t is ast.BinOp:
        return f"(EBin {BIN[type(e.op)]} {ex(e.left)} {ex(e.right)})"
    if t is ast.IfExp:
        return f"(EIf {ex(e.test)} {ex(e.body)} {ex(e.orelse)})"
    if t is ast.List:
        return f"(EList {lst(map(ex, e.elts))})"
    if t is ast.Tuple:
        return f"(ETuple {lst(map(ex, e.elts))})"
    if t is ast.Dict:
        return "(EDict " + lst(f"({ex(k)}, {ex(v)})" for k, v in zip(e.keys, e.values)) + ")"
    if t is ast.JoinedStr:
        parts = []
        for p in e.values:
            if isinstance(p, ast.FormattedValue):
                assert p.conversion == -1
                if p.format_spec is None:
                    parts.append(ex(p.value))
                else:
                    (c,) = p.format_spec.values
                    parts.append(f"(EFormat {ex(p.value)} {q(c.value)})")
            else:
                parts.append(ex(p))
        return f"(EFStr {lst(parts)})"
    if t is ast.ListComp:
        return f"(EListComp {ex(e.elt)} {comp(e)})"
    if t is ast.GeneratorExp:
        return f"(EGenExp {ex(e.elt)} {comp(e)})"
    if t is ast.DictComp:
        return f"(EDictComp {ex(e.key)} {ex(e.value)} {comp(e)})"
    raise SystemExit(f"line {e.lineno}: {ast.dump(e)}")


def tg(t):
    if isinstance(t, ast.Name):
        return f"(TgName {q(t.id)})"
    if isinstance(t, ast.Tuple):
        assert all(isinstance(x, ast.Name) for x in t.elts)
        return f"(TgTuple {lst(q(x.id) for x in t.elts)})"
    if isinstance(t, ast.Attribute):
        return f"(TgAttr {ex(t.value)} {q(t.attr)})"
    if isinstance(t, ast.Subscript) and not isinstance(t.slice, ast.Slice):
        return f"(TgSub {ex(t.value)} {ex(t.slice)})"
    raise SystemExit(f"target {ast.dump(t)}")


def block(b, ind):
    pad = "\n" + " " * ind
    return "[" + ";".join(pad + st(s, ind + 2) for s in b) + "]"


def st(s, ind):
    t = type(s)
    if t is ast.Expr:
        if isinstance(s.value, ast.Yield):
            return f"SYield {ex(s.value.value)}"
        return f"SExpr {ex(s.value)}"
    if t is ast.Assign:
        assert len(s.targets) == 1
        return f"SAssign {tg(s.targets[0])} {ex(s.value)}"
    if t is ast.AugAssign:
        return f"SAug {q(s.target.id)} {BIN[type(s.op)]} {ex(s.value)}"
    if t is ast.If:
        return f"SIf {ex(s.test)} {block(s.body, ind)} {block(s.orelse, ind)}"
    if t is ast.For:
        assert not s.orelse
        return f"SFor {tg(s.target)} {ex(s.iter)} {block(s.body, ind)}"
    if t is ast.Return:
        return f"SReturn {ex(s.value) if s.value is not None else 'ENone'}"
    if t is ast.Raise:
        assert s.cause is None
        return f"SRaise {ex(s.exc)}" if s.exc is not None else "SReraise"
    if t is ast.Try:
        (h,) = s.handlers
        assert not s.orelse and not s.finalbody and h.name is None and h.type is not None
        return f"STry {block(s.body, ind)} {ex(h.type)} {block(h.body, ind)}"
    if t is ast.Break:
        return "SBreak"
    if t is ast.Pass:
        return "SPass"
    if t is ast.With:
        (i,) = s.items
        return f"SWith {ex(i.context_expr)} {q(i.optional_vars.id)} {block(s.body, ind)}"
    raise SystemExit(f"line {s.lineno}: {ast.dump(s)}")


def strip_doc(body):
    b = body[0]
    if isinstance(b, ast.Expr) and isinstance(b.value, ast.Constant) and isinstance(b.value.value, str):
        return body[1:]
    return body


def fun(f):
    a = f.args
    assert not (a.vararg or a.kwarg or a.kwonlyargs or a.posonlyargs)
    d = [None] * (len(a.args) - len(a.defaults)) + list(a.defaults)
    ps = lst(f"({q(x.arg)}, {'None' if y is None else '(Some ' + ex(y) + ')'})" for x, y in zip(a.args, d))
    gen = any(isinstance(n, (ast.Yield, ast.YieldFrom)) for n in ast.walk(f))
    for dec in f.decorator_list:
        assert isinstance(dec, ast.Name) and dec.id == "property"
    return f"mkFun {ps} {str(gen).lower()}\n    {block(strip_doc(f.body), 4)}"


SKIP_FUN = {"parse_args"}
SKIP_ASSIGN = {"Header", "Record", "SStat", "TStat", "CStat", "CGChainer"}  # typing.Union aliases of utils.py


def module(path, pre, name, only=None):
    src = open(os.path.join(repo, path)).read()
    tree = ast.parse(src)
    res, funs, assigns, imports = [], [], [], []

    def deffun(f, qual):
        dn = pre + qual.replace(".", "_")
        res.append(f"(** {path}:{f.lineno}-{f.end_lineno} *)\nDefinition {dn} : fundef :=\n  {fun(f)}.\n")
        funs.append(f"({q(qual)}, {dn})")

    for s in strip_doc(tree.body):
        if isinstance(s, ast.Import):
            if only is None:
                for n in s.names:
                    assert n.asname is None
                    imports.append(f"({q(n.name)}, ({q(n.name)}, None))")
        elif isinstance(s, ast.ImportFrom):
            if s.module in ("__future__", "typing") or only is not None:
                continue
            for n in s.names:
                imports.append(f"({q(n.asname or n.name)}, ({q(s.module)}, Some {q(n.name)}))")
        elif isinstance(s, ast.FunctionDef):
            if only is None and s.name not in SKIP_FUN:
                deffun(s, s.name)
        elif isinstance(s, ast.ClassDef):
            for m in s.body:
                if isinstance(m, ast.FunctionDef) and (only is None or f"{s.name}.{m.name}" in only):
                    deffun(m, f"{s.name}.{m.name}")
        elif isinstance(s, (ast.Assign, ast.AnnAssign)):
            t = s.targets[0] if isinstance(s, ast.Assign) else s.target
            if only is None and not (pre == "u_" and t.id in SKIP_ASSIGN) and s.value is not None and pre != "sh_":
                dn = pre + "val_" + t.id.strip("_")
                res.append(f"(** {path}:{s.lineno}-{s.end_lineno} *)\nDefinition {dn} : expr :=\n  {ex(s.value)}.\n")
                assigns.append(f"({q(t.id)}, {dn})")
        elif isinstance(s, ast.If):
            continue
        else:
            raise SystemExit(f"{path}:{s.lineno}")
    res.append(f"(** {path} *)\nDefinition {pre}module : pymodule :=\n  mkModule\n    {lst(imports)}\n    {lst(assigns)}\n    {lst(funs)}.\n")
    return "\n".join(res)


parts = [
    module("atoparser/structs/shared.py", "ss_", "atoparser.structs.shared", None).replace("__CLASS__", ""),
    module("atoparser/structs/atop_2_11.py", "sc_", "atoparser.structs.atop_2_11", {"CGChainer.__init__"}),
    module("atoparser/utils.py", "u_", "atoparser.utils"),
    module("atoparser/parsers/atop_1_26.py", "p_", "atoparser.parsers.atop_1_26"),
    module("atoparser/__init__.py", "i_", "atoparser"),
    module("atoparser/reader.py", "r_", "atoparser.reader"),
]
with open(os.path.join(out, "Source.v"), "w") as f:
    f.write("""(** * The code of /repo/atoparser, as data

    Generated by tools/gen_source.py from the files named below; do not edit. *)
From Coq Require Import List ZArith String.
From Verif Require Import PySyntax.
Import ListNotations.
Local Open Scope string_scope.
Local Open Scope Z_scope.

""")
    f.write("\n".join(parts))
    f.write("""
(** The modules, by name. *)
Definition program : list (string * pymodule) :=
  [("atoparser.structs.shared", ss_module); ("atoparser.structs.atop_2_11", sc_module);
   ("atoparser.utils", u_module); ("atoparser.parsers.atop_1_26", p_module);
   ("atoparser", i_module); ("atoparser.reader", r_module)].
""")


# The struct modules, statement by statement (SourceClasses.v, syntax of PyClasses.v).
def item(s):
    if isinstance(s, ast.FunctionDef):
        assert all(isinstance(d, ast.Name) and d.id == "property" for d in s.decorator_list)
        return f"CDef {q(s.name)}"
    if isinstance(s, ast.AnnAssign):
        assert s.value is None  # an annotation binds nothing
        return None
    assert isinstance(s, ast.Assign) and len(s.targets) == 1
    return f"CAssign {q(s.targets[0].id)} {ex(s.value)}"


def top_level(path):
    res = []
    for s in strip_doc(ast.parse(open(os.path.join(repo, path)).read()).body):
        cite = f"(* {os.path.basename(path)}:{s.lineno}-{s.end_lineno} *) "
        if isinstance(s, ast.Import):
            for n in s.names:
                assert n.asname is None
                res.append(cite + f"TopImport {q(n.name)} {q(n.name)} None")
        elif isinstance(s, ast.ImportFrom):
            for n in s.names:
                res.append(cite + f"TopImport {q(n.asname or n.name)} {q(s.module)} (Some {q(n.name)})")
        elif isinstance(s, ast.Assign):
            assert len(s.targets) == 1
            res.append(cite + f"TopAssign {q(s.targets[0].id)} {ex(s.value)}")
        elif isinstance(s, ast.ClassDef):
            assert not s.keywords and not s.decorator_list
            items = [i for i in map(item, strip_doc(s.body)) if i]
            res.append(cite + f"TopClass {q(s.name)} {lst(map(ex, s.bases))} [" + ";".join("\n      " + i for i in items) + "]")
        else:
            raise SystemExit(f"{path}:{s.lineno}")
    return "[" + ";".join("\n    " + r for r in res) + "]"


STRUCTS = ["shared"] + ["atop_" + v for v in "1_26 2_3 2_4 2_5 2_6 2_7 2_8 2_9 2_10 2_11 2_12".split()]
with open(os.path.join(out, "SourceClasses.v"), "w") as f:
    f.write("""(** * The struct modules of /repo/atoparser/structs, as data

    Generated by tools/gen_source.py from the files named below; do not edit. *)
From Coq Require Import List ZArith String.
From Verif Require Import PySyntax PyClasses.
Import ListNotations.
Local Open Scope string_scope.
Local Open Scope Z_scope.

""")
    for m in STRUCTS:
        f.write(f"(** atoparser/structs/{m}.py *)\nDefinition text_{m} : list top :=\n  {top_level(f'atoparser/structs/{m}.py')}.\n\n")
    f.write("(** In an order in which every module comes after those it imports. *)\nDefinition struct_source : list (string * list top) :=\n  "
            + lst(f'("atoparser.structs.{m}", text_{m})' for m in STRUCTS) + ".\n")


# parse_args of reader.py (SourceArgs.v; its meaning is in PyArgs.v).
for f_ in ast.parse(open(os.path.join(repo, "atoparser/reader.py")).read()).body:
    if isinstance(f_, ast.FunctionDef) and f_.name == "parse_args":
        with open(os.path.join(out, "SourceArgs.v"), "w") as f:
            f.write(f"""(** * parse_args of /repo/atoparser/reader.py, as data

    Generated by tools/gen_source.py; do not edit. *)
From Coq Require Import List ZArith String.
From Verif Require Import PySyntax.
Import ListNotations.
Local Open Scope string_scope.
Local Open Scope Z_scope.

(** atoparser/reader.py:{f_.lineno}-{f_.end_lineno} *)
Definition r_parse_args : fundef :=
  {fun(f_)}.
""")


# Everything that importing the package executes (SourcePackage.v; its meaning is in PyPackage.v).
def pdef(f):
    a = f.args
    assert not (a.vararg or a.kwarg or a.kwonlyargs or a.posonlyargs)
    ann = [x.annotation for x in a.args if x.annotation is not None] + ([f.returns] if f.returns is not None else [])
    return f"(mkDef {q(f.name)} {lst(map(ex, f.decorator_list))} {lst(map(ex, a.defaults))} {lst(map(ex, ann))})"


def pitem(s):
    if isinstance(s, ast.FunctionDef):
        return f"PIDef {pdef(s)}"
    if isinstance(s, ast.AnnAssign):
        assert s.value is None and isinstance(s.target, ast.Name)
        return f"PIAnn {ex(s.annotation)}"
    assert isinstance(s, ast.Assign) and len(s.targets) == 1
    return f"PIAssign {q(s.targets[0].id)} {ex(s.value)}"


def package_text(path):
    res = []
    for s in strip_doc(ast.parse(open(os.path.join(repo, path)).read()).body):
        cite = f"(* {os.path.basename(path)}:{s.lineno}-{s.end_lineno} *) "
        if isinstance(s, ast.Import):
            for n in s.names:
                assert n.asname is None and "." not in n.name
                res.append(cite + f"PImport {q(n.name)}")
        elif isinstance(s, ast.ImportFrom):
            assert s.level == 0
            for n in s.names:
                res.append(cite + f"PFrom {q(s.module)} {q(n.name)} {q(n.asname or n.name)}")
        elif isinstance(s, ast.Assign):
            assert len(s.targets) == 1
            res.append(cite + f"PAssign {q(s.targets[0].id)} {ex(s.value)}")
        elif isinstance(s, ast.AnnAssign):
            res.append(cite + f"PAnn {q(s.target.id)} {ex(s.annotation)} {ex(s.value)}")
        elif isinstance(s, ast.FunctionDef):
            res.append(cite + f"PDef {pdef(s)}")
        elif isinstance(s, ast.ClassDef):
            assert not s.keywords and not s.decorator_list
            res.append(cite + f"PClass {q(s.name)} {lst(map(ex, s.bases))} [" + ";".join("\n      " + pitem(i) for i in strip_doc(s.body)) + "]")
        elif isinstance(s, ast.If):
            assert not s.orelse
            res.append(cite + f"PIf {ex(s.test)} {block(s.body, 6)}")
        else:
            raise SystemExit(f"{path}:{s.lineno}")
    return "[" + ";".join("\n    " + r for r in res) + "]"


PACKAGE = [("atoparser", "__init__"), ("atoparser.structs", "structs/__init__"), ("atoparser.parsers", "parsers/__init__"),
           ("atoparser.utils", "utils"), ("atoparser.parsers.atop_1_26", "parsers/atop_1_26"), ("atoparser.reader", "reader")]
PACKAGE += [("atoparser.structs." + m, "structs/" + m) for m in STRUCTS]
with open(os.path.join(out, "SourcePackage.v"), "w") as f:
    f.write("""(** * Everything that importing the package /repo/atoparser executes, as data

    Generated by tools/gen_source.py from the files named below; do not edit. *)
From Coq Require Import List ZArith String.
From Verif Require Import PySyntax PyPackage.
Import ListNotations.
Local Open Scope string_scope.
Local Open Scope Z_scope.

""")
    for m, p in PACKAGE:
        f.write(f"(** atoparser/{p}.py *)\nDefinition pk_{p.replace('/', '_')} : list ptop :=\n  {package_text(f'atoparser/{p}.py')}.\n\n")
    f.write("(** The modules of the package, by name. *)\nDefinition package : list (string * list ptop) :=\n  "
            + lst(f"({q(m)}, pk_{p.replace('/', '_')})" for m, p in PACKAGE) + ".\n")


# The Python programs of README.md (SourceReadme.v).
with open(os.path.join(repo, "README.md")) as f:
    readme = f.read().split("\n")
programs = []
for start, line in enumerate(readme):
    if line.rstrip() == "```python":
        end = next(i for i in range(start + 1, len(readme)) if readme[i].rstrip() == "```")
        tree = ast.parse("\n".join(readme[start + 1:end]))
        ims = [s for s in tree.body if isinstance(s, ast.Import)]
        rest = [s for s in tree.body if not isinstance(s, ast.Import)]
        assert tree.body == ims + rest and all(n.asname is None and "." not in n.name for s in ims for n in s.names)
        programs.append(f"(** README.md:{start + 2}-{end} *)\nDefinition readme_{len(programs) + 1} : list string * list stmt :=\n  "
                        f"({lst(q(n.name) for s in ims for n in s.names)},\n   {block(rest, 5)}).\n")
with open(os.path.join(out, "SourceReadme.v"), "w") as f:
    f.write("""(** * The Python programs of /repo/README.md, as data: the modules they import, their statements

    Generated by tools/gen_source.py; do not edit. *)
From Coq Require Import List ZArith String.
From Verif Require Import PySyntax.
Import ListNotations.
Local Open Scope string_scope.
Local Open Scope Z_scope.

""" + "\n".join(programs))
