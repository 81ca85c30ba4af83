#!/usr/bin/env python3
"""A TEST of the model (not a proof): the parts of CPython's standard library that the model
re-implements, against the standard library itself, on random inputs.

  zlib.decompress, gzip.open().read(), repr of a c_float, bytes.decode (strict and ignore),
  json.dumps of a string, and argparse with the parser definition of reader.py (copied below;
  nothing of /repo is imported or run).

Needs a built /verif/rocq and ocamlfind + zarith.

    python3 tools/fuzz_stdlib.py [rounds] [seed] [work directory]
"""
import argparse
import contextlib
import ctypes
import gzip
import io
import json
import os
import random
import resource
import struct
import subprocess
import sys
import zlib

VERIF = os.path.dirname(os.path.dirname(os.path.abspath(__file__)))
ROUNDS = int(sys.argv[1]) if len(sys.argv) > 1 else 2000
SEED = int(sys.argv[2]) if len(sys.argv) > 2 else 1
WORK = sys.argv[3] if len(sys.argv) > 3 else "/tmp/fuzz_stdlib"

EXTRACT = r'''
From Coq Require Import Extraction ExtrOcamlBasic ExtrOcamlZBigInt ExtrOcamlNatInt ExtrOcamlString.
From Coq Require Import String Init.Byte List ZArith.
From Verif Require Import PyBase Utf8 CTypes Model Parsers Json FloatRepr Inflate Gzip Reader Args.
Definition args (l : list (list Z)) :=
  parse_args (fun c => andb (Z.leb 48 c) (Z.leb c 57)) l.
Definition float_text := dump_float repr32.
Extract Constant List.rev => "List.rev".
Extract Constant List.app => "List.append".
Extraction "model.ml" byte_of bval zdecompress gunzip float_text decode_strict decode_ignore dump_str args.
'''
MAIN = r'''
open Model
let z = Big_int_Z.big_int_of_int
let i = Big_int_Z.int_of_big_int
let table = Array.init 256 (fun n -> byte_of (z n))
let unhex s = List.init (String.length s / 2) (fun k -> int_of_string ("0x" ^ String.sub s (2*k) 2))
let bytes s = List.map (fun n -> table.(n)) (unhex s)
let hexb l = String.concat "" (List.map (fun b -> Printf.sprintf "%02x" (i (bval b))) l)
let codes l = String.concat " " (List.map (fun c -> string_of_int (i c)) l)
let arg s = if s = "" then [] else List.map (fun w -> z (int_of_string w)) (String.split_on_char ' ' s)
let opt = function Some l -> "ok " ^ hexb l | None -> "fail"
let answer l =
  let k = l.[0] and r = String.sub l 2 (String.length l - 2) in
  match k with
  | 'z' -> opt (zdecompress (bytes r))
  | 'g' -> opt (gunzip (bytes r))
  | 'f' -> codes (float_text (Big_int_Z.big_int_of_string r))
  | 's' -> (match decode_strict (bytes r) with Ok l -> "ok " ^ codes l | Raise _ -> "fail")
  | 'i' -> codes (decode_ignore (bytes r))
  | 'j' -> codes (dump_str (arg r))
  | 'a' ->
      let a = if r = "." then [] else List.map arg (String.split_on_char ',' r) in
      (match args a with
       | Exit c -> "exit " ^ string_of_int (i c)
       | Go o ->
           let l x = String.concat "," (List.map codes x) in
           Printf.sprintf "ok %s|%s|%b|%b|%b" (l o.op_files)
             (match o.op_parseables with None -> "None" | Some x -> l x) o.op_pretty o.op_tstats o.op_cstats)
  | _ -> "?"
let () = try while true do print_endline (answer (input_line stdin)) done with End_of_file -> ()
'''


def build() -> None:
    os.makedirs(WORK, exist_ok=True)
    for name, src in (("Ext.v", EXTRACT), ("main.ml", MAIN)):
        with open(os.path.join(WORK, name), "w") as f:
            f.write(src)
    subprocess.run(["coqc", "-Q", os.path.join(VERIF, "rocq/theories"), "Verif", "Ext.v"],
                   cwd=WORK, check=True, capture_output=True)
    path = os.path.join(WORK, "model.ml")
    src = open(path).read()
    for g in ("List.rev", "List.append"):
        for f in ("rev", "rev0", "app", "app0"):
            src = src.replace(f"let rec {f} = {g}", f"let {f} = {g}")
    open(path, "w").write(src)
    subprocess.run(["ocamlfind", "ocamlopt", "-w", "-a", "-package", "zarith", "-linkpkg",
                    "model.mli", "model.ml", "main.ml", "-o", "run"], cwd=WORK, check=True,
                   stderr=subprocess.DEVNULL)


def model(lines: list[str]) -> list[str]:
    out = subprocess.run([os.path.join(WORK, "run")], input="\n".join(lines) + "\n", capture_output=True,
                         text=True, check=True,
                         preexec_fn=lambda: resource.setrlimit(resource.RLIMIT_STACK, (resource.RLIM_INFINITY,) * 2))
    return out.stdout.split("\n")[:len(lines)]


R = random.Random(SEED)


def payload() -> bytes:
    n = R.choice([0, 1, 2, 5, 30, 300, 2000])
    k = R.randrange(4)
    if k == 0:
        return R.randbytes(n)
    if k == 1:
        return bytes(R.choice(b"abcde \n") for _ in range(n))
    if k == 2:
        return bytes([R.randrange(256)]) * n
    words = [R.randbytes(R.randrange(1, 9)) for _ in range(4)]
    return b"".join(R.choice(words) for _ in range(n // 4))


def raw_deflate(wbits: int) -> bytes:
    c = zlib.compressobj(R.choice([0, 1, 6, 9]), zlib.DEFLATED, wbits, R.choice([1, 8, 9]),
                         R.choice([zlib.Z_DEFAULT_STRATEGY, zlib.Z_HUFFMAN_ONLY, zlib.Z_RLE, zlib.Z_FIXED,
                                   zlib.Z_FILTERED]))
    out = b""
    for _ in range(R.randrange(1, 4)):
        out += c.compress(payload()) + c.flush(R.choice([zlib.Z_NO_FLUSH, zlib.Z_SYNC_FLUSH, zlib.Z_FULL_FLUSH]))
    return out + c.flush()


class Bits:
    """Writes a DEFLATE stream bit by bit."""

    def __init__(self):
        self.bits = []

    def put(self, v, n):
        self.bits += [(v >> k) & 1 for k in range(n)]

    def bytes(self):
        b = self.bits + [0] * (-len(self.bits) % 8)
        return bytes(sum(b[8 * i + k] << k for k in range(8)) for i in range(len(b) // 8))


def random_dynamic() -> bytes:
    """A dynamic block with a random header: mostly invalid, often just past the checks."""
    w = Bits()
    w.put(1, 1), w.put(2, 2)
    w.put(R.choice([0, 0, 1, 29, 30, 31]), 5)
    w.put(R.choice([0, 0, 1, 29, 30, 31]), 5)
    if R.random() < 0.7:
        # a complete code length code: 2 symbols of length 1, or 1/2/2, or all of length 4 but 3
        n = R.choice([4, 18, 19])
        w.put(n - 4, 4)
        lens = [0] * n
        for p, l in zip(R.sample(range(n), min(n, 3)), R.choice([[1, 1], [1, 2, 2], [1, 2, 3], [1, 1, 1], [1]])):
            lens[p] = l
        for l in lens:
            w.put(l, 3)
    else:
        n = R.randrange(4, 20)
        w.put(n - 4, 4)
        for _ in range(n):
            w.put(R.choice([0, 0, 0, 1, 2, 3, 4, 5, 7]), 3)
    for _ in range(R.randrange(0, 600)):
        w.put(R.randrange(2), 1)
    return w.bytes()


def huff_lens(n: int, need: list[int]) -> list[int]:
    """A random length assignment: complete code, possibly damaged afterwards."""
    syms = sorted(set(need) | set(R.sample(range(n), R.randrange(0, min(n, 20)))))
    if len(syms) == 1:
        lens = [1]
    else:
        lens = [1, 1]
        while len(lens) < len(syms):
            k = R.choice([i for i, l in enumerate(lens) if l < 15])
            lens[k] += 1
            lens.append(lens[k])
        R.shuffle(lens)
    out = [0] * n
    for s, l in zip(syms, lens):
        out[s] = l
    if R.random() < 0.15:
        out[R.choice(syms)] = R.randrange(0, 16)
    return out


def codes_of(lens):
    code, out = 0, {}
    for l in range(1, 16):
        for s, x in enumerate(lens):
            if x == l:
                out[s] = (code, l)
                code += 1
        code <<= 1
    return out


def crafted_dynamic() -> bytes:
    """A dynamic block written by hand, with random codes, then random symbols."""
    w = Bits()
    for last in ([0] * R.randrange(0, 2)) + [1]:
        nlen, ndist = R.randrange(257, 287), R.randrange(1, 31)
        lit = huff_lens(nlen, [256] if R.random() < 0.95 else [0])
        dist = R.choice([lambda: huff_lens(ndist, [0]), lambda: [0] * ndist])()
        w.put(last, 1), w.put(2, 2), w.put(nlen - 257, 5), w.put(ndist - 1, 5), w.put(15, 4)
        # code length code: lengths 0..15 with 5 bits... use 4 bits for 13 symbols and 5 for 6
        cl = [4] * 13 + [5] * 6
        R.shuffle(cl)
        order = [16, 17, 18, 0, 8, 7, 9, 6, 10, 5, 11, 4, 12, 3, 13, 2, 14, 1, 15]
        for s in order:
            w.put(cl[s], 3)
        cc = codes_of(cl)

        def sym(table, s):
            c, l = table[s]
            for k in range(l - 1, -1, -1):
                w.put((c >> k) & 1, 1)

        seq, i = lit + dist, 0
        while i < len(seq):
            run = 1
            while i + run < len(seq) and seq[i + run] == seq[i]:
                run += 1
            if seq[i] == 0 and run >= 11 and R.random() < 0.9:
                run = min(run, 138)
                sym(cc, 18), w.put(run - 11, 7)
            elif seq[i] == 0 and run >= 3 and R.random() < 0.9:
                run = min(run, 10)
                sym(cc, 17), w.put(run - 3, 3)
            elif i > 0 and seq[i] == seq[i - 1] and run >= 3 and R.random() < 0.9:
                run = min(run, 6)
                sym(cc, 16), w.put(run - 3, 2)
            else:
                run = 1
                sym(cc, seq[i])
            i += run
        lc, dc = codes_of(lit), codes_of(dist)
        for _ in range(R.randrange(0, 60)):
            s = R.choice(list(lc)) if lc else 256
            if s == 256 or s not in lc or lc[s][0] >= 1 << lc[s][1]:
                continue
            if s > 256 and not dc:
                if R.random() < 0.9:
                    continue
            sym(lc, s)
            if s > 256:
                e = [0] * 8 + [1] * 4 + [2] * 4 + [3] * 4 + [4] * 4 + [5] * 4 + [0]
                w.put(R.choice([0, 0, 31]), e[s - 257] if s - 257 < 29 else 0)
                if dc:
                    d = R.choice([x for x in dc])
                    if R.random() < 0.9:
                        d = min(dc)
                    sym(dc, d)
                    w.put(0 if R.random() < 0.9 else R.getrandbits(13), max(0, d // 2 - 1))
        if 256 in lc:
            sym(lc, 256)
    return w.bytes()


def damage(b: bytes) -> bytes:
    b = bytearray(b)
    for _ in range(R.choice([0, 0, 1, 1, 2])):
        k = R.randrange(4)
        if k == 0 and b:
            b[R.randrange(len(b))] ^= 1 << R.randrange(8)
        elif k == 1:
            del b[R.randrange(len(b) + 1):]
        elif k == 2:
            b += R.randbytes(R.randrange(1, 5))
        elif b:
            b[R.randrange(len(b))] = R.randrange(256)
    return bytes(b)


def inflatable(raw: bytes) -> bytes:
    try:
        d = zlib.decompressobj(-15)
        return d.decompress(raw) if True else b""
    except zlib.error:
        return b"?"


def zlib_input() -> bytes:
    k = R.randrange(10)
    if k == 0:
        return R.randbytes(R.randrange(0, 12))
    if k <= 3:
        raw = crafted_dynamic() if k > 1 else random_dynamic()
        return damage(b"\x78\x9c" + raw + struct.pack(">I", zlib.adler32(inflatable(raw))))
    b = raw_deflate(R.choice([9, 12, 15]))
    if k == 4:
        return b + R.randbytes(5)
    return damage(b) if k < 8 else b


def gzip_input() -> bytes:
    out = b""
    for _ in range(R.choice([1, 1, 1, 2, 3])):
        raw = crafted_dynamic() if R.random() < 0.2 else raw_deflate(-15)
        data = inflatable(raw)
        fl = R.choice([0, 0, 0, 0, 8, 4, 16, 2, 31, R.randrange(256)])
        m = b"\x1f\x8b\x08" + bytes([fl]) + R.randbytes(6)
        if fl & 4:
            x = R.randbytes(R.choice([0, 3, 300]))
            m += struct.pack("<H", len(x)) + x
        if fl & 8:
            m += b"name\0"
        if fl & 16:
            m += b"\0"
        if fl & 2:
            m += b"\1\2"
        m += raw + struct.pack("<II", zlib.crc32(data), len(data))
        out += m
        if R.random() < 0.3:
            out += b"\0" * R.randrange(0, 4)
    return damage(out) if R.random() < 0.6 else out


def float_input() -> int:
    k = R.randrange(6)
    if k == 0:
        return R.choice([0, 1 << 31, 0x7f800000, 0xff800000, 0x7fc00000, 1, 0x7fffff, 0x800000, 0x7f7fffff])
    if k == 1:
        return struct.unpack("<I", struct.pack("<f", R.randrange(0, 10 ** R.randrange(1, 20))))[0]
    if k == 2:
        return struct.unpack("<I", struct.pack("<f", 10.0 ** R.randrange(-45, 39)))[0]
    if k == 3:
        return struct.unpack("<I", struct.pack("<f", R.randrange(0, 100000) / 100))[0]
    return R.getrandbits(32)


def text_bytes() -> bytes:
    k = R.randrange(3)
    if k == 0:
        return bytes(R.choice([0x41, 0x80, 0xbf, 0xc0, 0xc1, 0xc2, 0xdf, 0xe0, 0x9f, 0xa0, 0xed, 0xef, 0xf0, 0x8f,
                               0x90, 0xf4, 0xf5, 0xff]) for _ in range(R.randrange(0, 12)))
    s = "".join(chr(R.choice([R.randrange(128), R.randrange(0x800), R.randrange(0xd800), R.randrange(0x10000, 0x110000)]))
                for _ in range(R.randrange(0, 8)))
    b = s.encode("utf-8", "ignore")
    return damage(b) if k == 1 else b


PARSEABLES = ["cpu", "CPL", "CPU", "DSK", "LVM", "MDD", "MEM", "NETL", "NETU", "PAG", "PRC", "PRG", "PRM", "PRN", "SWP"]
PARSER = argparse.ArgumentParser("Convert binary files into JSON output.")
PARSER.add_argument("files", nargs="+")
PARSER.add_argument("-P", "--parseables", nargs="+", choices=PARSEABLES, metavar="PARSEABLE")
PARSER.add_argument("-p", "--pretty-print", action="store_true")
PARSER.add_argument("--tstats", dest="show_tstats", action="store_true")
PARSER.add_argument("--cstats", dest="show_cstats", action="store_true")

WORDS = ["a", "b.gz", "--", "-", "", "-p", "-P", "-h", "--help", "--pretty-print", "--parseables", "--tstats", "--cstats",
         "--p", "--pr", "--pa", "--t", "--c", "--h", "-pP", "-ph", "-pp", "-pPCPU", "-PCPU", "-P=CPU", "--parseables=CPU",
         "--pa=DSK", "--tstats=1", "--pretty-print=", "-p=", "-p=1", "-pP=CPU", "-x", "-px", "--x", "-1", "-1.5", "-.5",
         "-1.", "-x y", "--x y", "-p y", "-1\n", "-\n", "CPU", "DSK", "cpu", "CPL", "PRD", "CPUX", "-P CPU", "--pa CPU", "-pP-",
         "-p-", "-pp=P", "-hp", "-Ph", "--=", "-=", "--tstats --cstats", "---", "-pPP", "-P-p", "--p=x", "-P=", "--parseables=",
         "-pxP", "-p\n", "x=y", "-\u00e9"]


def argv_input() -> list[str]:
    n = R.randrange(0, 7)
    likely = ["a", "b.gz", "-p", "--tstats", "--cstats", "--p", "--t", "--c", "--", "-pp", "x=y", "-1", "CPU", "-PCPU",
              "-P=CPU", "-", "--pa=DSK", "-x y"]
    out = [R.choice(likely if R.random() < 0.8 else WORDS) for _ in range(n)]
    if R.random() < 0.3:
        out = [w + R.choice(["", "=", "p", "P", "-", " "]) if R.random() < 0.3 else w for w in out]
    if R.random() < 0.4:
        out.insert(R.randrange(len(out) + 1), "-P")
        out.insert(out.index("-P") + 1, R.choice(PARSEABLES))
    return out


def run_argparse(argv: list[str]) -> str:
    def code(x):
        return " ".join(str(ord(c)) for c in x)

    with contextlib.redirect_stdout(io.StringIO()), contextlib.redirect_stderr(io.StringIO()):
        try:
            o = PARSER.parse_args(argv)
        except SystemExit as e:
            return f"exit {e.code}"
    b = lambda v: "true" if v else "false"  # noqa: E731
    return "ok %s|%s|%s|%s|%s" % (
        ",".join(code(f) for f in o.files),
        "None" if o.parseables is None else ",".join(code(p) for p in o.parseables),
        b(o.pretty_print), b(o.show_tstats), b(o.show_cstats))


def attempt(f) -> str:
    try:
        return "ok " + f().hex()
    except Exception:  # zlib.error, OSError, EOFError
        return "fail"


def codes(s) -> str:
    return " ".join(str(ord(c)) for c in s)


def f32(bits: int) -> float:
    return ctypes.c_float.from_buffer_copy(struct.pack("<I", bits)).value


def strict(b: bytes) -> str:
    try:
        return "ok " + codes(b.decode())
    except UnicodeDecodeError:
        return "fail"


def main() -> None:
    build()
    tests = []
    for _ in range(ROUNDS):
        b = zlib_input()
        tests.append(("z " + b.hex(), attempt(lambda: zlib.decompress(b))))
        b = gzip_input()
        tests.append(("g " + b.hex(), attempt(lambda: gzip.open(io.BytesIO(b), "rb").read())))
        v = float_input()
        tests.append((f"f {v}", codes(json.dumps(f32(v)))))
        b = text_bytes()
        tests.append(("s " + b.hex(), strict(b)))
        tests.append(("i " + b.hex(), codes(b.decode(errors="ignore"))))
        s = b.decode(errors="ignore")
        tests.append(("j " + codes(s), codes(json.dumps(s))))
        argv = argv_input()
        tests.append(("a " + (",".join(codes(a) for a in argv) if argv else "."), run_argparse(argv)))
    got = model([t for t, _ in tests])
    count, ok, bad = {}, {}, []
    for (t, want), have in zip(tests, got):
        count[t[0]] = count.get(t[0], 0) + 1
        ok[t[0]] = ok.get(t[0], 0) + (not want.startswith(("fail", "exit")))
        if want.strip() != have.strip():
            bad.append((t[:300], want[:200], have[:200]))
    names = {"z": "zlib.decompress", "g": "gzip", "f": "float text", "s": "decode", "i": "decode ignore",
             "j": "json string", "a": "argparse"}
    for k in count:
        print(f"{names[k]}: {count[k]} inputs, {ok[k]} accepted")
    print(f"{len(bad)} differences")
    for b in bad[:20]:
        print(" ", b)


main()
