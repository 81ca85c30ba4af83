# Formal model of atoparser in Rocq/Coq 8.16.1

All files are in `rocq/theories/` (logical name `Verif`).

## Files

| file | content | models |
|---|---|---|
| `PyBase.v` | exceptions as values (`res`), the file object (remaining bytes + optional I/O fault), Python slices, little-endian integers, `str(int)`/`int(str)`, `split(".")` | Python runtime used by utils.py/reader.py |
| `Utf8.v` | CPython's UTF-8 decoder, strict and `errors="ignore"` | `bytes.decode` |
| `CTypes.v` | struct types, x86-64 sizes/alignments/offsets, `getattr`, array items, `from_buffer_copy`, `readinto` | the part of `ctypes` used |
| `AnyFile.v` | the same functions as programs that ask any object for `read` and `readinto` and go on with its answer; objects as state machines | utils.py, the file object |
| `Heap.v` | the same functions as `Model.v` (utils.py) with memory blocks and references: which objects share bytes, attribute assignment, the generator holding the header object; programs that iterate and assign | utils.py, memory |
| `S_shared.v`, `S_1_26.v … S_2_12.v` | every struct table, constant and alias, generated from the text of `/repo/atoparser/structs/*.py` by `tools/gen_structs.py`, with line citations | structs/*.py |
| `Model.v` | HeaderMixin, get_header, get_record, get_sstat, get_tstat, get_cstat, the generate_statistics generator as a state machine, struct_to_dict | structs/shared.py, utils.py |
| `HeaderCache.v` | HeaderMixin with its cached `_semantic_version`, as a state machine over reads and writes | structs/shared.py |
| `Parsers.v` | the 16 `parse_*` functions | parsers/atop_1_26.py |
| `Json.v` | `json.dumps` (indent None / 2) as text | reader.py:112 |
| `Inflate.v` | zlib.decompress: zlib wrapper, DEFLATE (stored, fixed, dynamic), Adler-32 | CPython's `zlib.decompress` |
| `Gzip.v` | gzip members, CRC-32, the file `gzip.open` returns | CPython's `gzip` |
| `PyFloat.v` | doubles: division of two integers, an integer minus a double, the format `.02%` | CPython's `long_true_divide`, `float_sub`, float formatting |
| `SourceReadme.v` | the text of README.md's python blocks in the syntax of `PySyntax.v`, written by `tools/gen_source.py` | README.md |
| `FloatRepr.v` | `float.__repr__` of a `c_float`'s value | CPython's short float repr |
| `Reader.v` | `PARSEABLE_MAP`, opening a path, `parse_file`, the loop of `main` | reader.py |
| `Messages.v` | the texts of the two ValueErrors /repo raises itself | utils.py:151, structs/shared.py:59-61 |
| `PySyntax.v`, `PyEval.v`, `PyProgram.v`, `PyGenerator.v` | a Python subset: syntax, an interpreter (memory, objects, exceptions, generators as execution trees), importing the modules, generator objects | the Python language as used by /repo |
| `Source.v` | the text of /repo's functions and module constants in that syntax, written by `tools/gen_source.py` from Python's own parse tree | structs/shared.py, structs/atop_2_11.py (CGChainer), utils.py, parsers/atop_1_26.py, `__init__.py`, reader.py |
| `PyClasses.v`, `SourceClasses.v` | what import, assignment and class statements do (namespaces, classes with bases, ctypes.Structure); the text of the struct modules, written by `tools/gen_source.py` from Python's own parse tree | structs/*.py |
| `PyArgs.v`, `SourceArgs.v` | argparse for any parser with at most one positional (nargs "+") and options that are store_true, store with nargs "+" or help: what add_argument adds, what parse_args() does; the text of parse_args | reader.py:18-59 |
| `PyPackage.v`, `SourcePackage.v` | the import system (sys.modules, parent packages, submodules), all top-level statements of all modules: imports, assignments, type aliases (`typing.Union`), classes, `def` with decorators, defaults and annotations (evaluated unless the module starts with `from __future__ import annotations`), the `__main__` guard; isinstance with a class or a union | all modules of atoparser/ |
| `GenMethods.v` | next, send, throw and close of the iterator with any argument, as CPython 3.11's genobject.c applies them | utils.py:96-130 |
| `Args.v` | the command line: the part of CPython 3.11's `argparse` that reader.py's parser definition reaches; `main` | reader.py:18-58, 115-126 |
| `Spec.v`, `SpecDict.v`, `SpecLog.v`, `SpecRows.v`, `SpecJson.v`, `SpecReader.v`, `SpecArgs.v`, `SpecFollow.v`, `SpecFloat.v`, `SpecShortest.v`, `SpecDeflate.v`, `SpecGzip.v`, `SpecFormat.v`, `SpecFormatTables.v`, `SpecDocument.v`, `SpecMessage.v`, `SpecForward.v`, `SpecBounds.v`, `SpecHeap.v`, `SpecGroups.v`, `SpecAnyFile.v`, `SpecSource.v`, `SpecDamage.v`, `SpecClasses.v`, `SpecPackage.v`, `SpecClient.v`, `SpecUsage.v` | independent small specifications: fields at absolute byte offsets, log layout, C value layout, UTF-8 encoder, dictionaries, row contents, a JSON parser, printed entries, a queue of unread samples, reading a JSON number as a double, zlib streams as in RFC 1950/1951, gzip files as in RFC 1952, the format of every part of a log as a table of paths, offsets and kinds (`SpecFormatTables.v`, generated by `tools/gen_format.py`, which asks CPython's ctypes for the offsets) | nothing: this is what the theorems are stated against |
| `LogBuild.v` | a writer of logs; shows that the hypotheses of the log theorems are met for every version and number of samples | nothing |
| `*Proofs.v` | lemmas | |
| `PropHeader.v` (C01–C08), `PropLog.v` (C09–C21, C41, C44), `PropStruct.v` (C22–C30), `PropCache.v` (C40), `PropRows.v` (C31–C35), `PropJson.v` (C42), `PropReader.v` (C36–C39, C43, C47), `PropArgs.v` (C45), `PropMain.v` (C46), `PropFollow.v` (C48), `PropDamage.v` (C61), `PropClasses.v` (C62), `PropFloat.v` (C42, C49), `PropShortest.v` (C42: shortest text; lemmas in `FloatShortest.v`), `PropDeflate.v` (C41), `PropGzip.v` (C50), `PropFormat.v`, `PropOutput.v` (C51), `PropClient.v` (C66), `PropHand.v` (C67), `PropUsage.v` (C68; lemmas in `UsageProofs.v`), `PropMethods.v` (C16, all methods), `PropMethods2.v` (C57, all methods), `PropMessage.v` (C52), `PropForward.v` (C53), `PropBounds.v` (C54), `PropHeap.v` (C55), `PropGroups.v` (C19, any data), `PropAnyFile.v` (C56), `PropSource.v` (C57; lemmas in `Src*.v`), `PropSource2.v` (C58; `SrcDict.v`), `PropSource3.v` (C59; `SpecSource2.v`, `SrcParse.v`), `PropSource4.v` (C60; `SpecSource3.v`, `SrcReader*.v`), `PropSource5.v` (C63), `PropPackage.v` (C64; `PackageProofs.v`), `PropTypes.v` (C65) | the property theorems and examples | |

## Modelling decisions

* **Bytes** are `Coq.Init.Byte.byte`; all sizes and offsets are `Z`.
* **Exceptions** are values. `res A := Ok a | Raise e`, `e` one of ValueError (with its cause), AttributeError,
  TypeError, zlib.error, UnicodeDecodeError, KeyError and an arbitrary I/O exception. Texts: `Messages.v`.
* **File object**: bytes not yet consumed, plus an optional fault raised by any read that asks for more than is left
  (a truncated gzip file raises EOFError there; a plain file or BytesIO has no fault and returns a short read).
  Position = number of bytes consumed. Reads are never short except at the end (true of BytesIO, BufferedReader, GzipFile).
* **zlib.decompress** is an argument `dec : list byte -> option (list byte)` of every model function, so that theorems hold for any
  decompressor with the stated hypotheses; `Inflate.v` gives the concrete one, for which the hypotheses are proved.
* **ctypes instances** are (type, bytes), as in ctypes; attributes are decoded on access. Platform: little-endian LP64 (the only one Atop logs and the
  repo's sizes agree with). Class identity (`isinstance(record, atop_1_26.Record)`) is identity of the qualified struct name.
* **Generators**: `generate_statistics` is a state machine with `next`/`close`/`throw`; `list(gen)` drains it.
* **Header caching** (`_semantic_version`): a separate stateful model, proved to be transparent for unmutated headers; the rest of the model uses the pure function.
* **Floats** (`c_float`) are kept as their 32-bit pattern. The floats that README.md's program computes are doubles as exact rationals m * 2^e with a sign (`PyFloat.v`); infinities, NaN and subnormal results are not modelled: no two numbers of a sample lead there.
* Memory exhaustion, `ctypes` type creation limits, wall-clock performance are not modelled.

* **Disk**: a function from paths (lists of code points) to contents or an exception, constant during a run. `gzip.open` on a damaged file
  delivers some bytes and then raises: how many and what is a parameter (`salvage`, `fault`) of the theorems, since it depends on buffering in zlib.
* **float.__repr__** is a parameter `float_repr` of the reader model. `FloatRepr.v` models CPython's (shortest decimal that reads back, `repr32`; compared with CPython on 7416 bit patterns); C42 and C49 are proved for it against `SpecFloat.v`, which defines over the rationals what double a JSON number is read as. The other theorems hold for every `float_repr`.

* **argparse**: classification of the words (exact options, `=`, unique abbreviations, negative-number-like words, words with spaces, `--`),
  the consumption loop, clustered short options, the choices check. Not modelled: the text of help and error messages, `fromfile_prefix_chars` and the
  other features the parser definition does not use. Which characters are decimal digits (`\d`) is a parameter. The model was compared with
  CPython 3.11.10's argparse on 12000 random command lines (a test, not part of the proofs).

Not modelled: `setup.py`/packaging, the tests, GeneratorExit/StopIteration thrown into the generator, re-entrant `next`, texts of exceptions raised by ctypes, zlib and the interpreter.

## Tests of the model (not proofs)

* `tools/conformance.py` extracts the model to OCaml, runs it on the 14 sample logs in `/repo/atoparser/test/files` (all versions) and compares
  the output with the values expected by the project's unit tests (read as literals) and with Python's own `json.dumps`: 131 comparisons, no difference.
* `tools/fuzz_stdlib.py` compares the modelled parts of CPython's standard library with the standard library itself on random inputs (valid, crafted and
  damaged): zlib.decompress, gzip, float text, UTF-8 decoding, JSON strings, argparse with reader.py's parser definition. 20000 inputs each, no difference.
* `seeded/LOG.jsonl`: wrong programs and the theorems that reject them.

## Plan per property

| id | how it is proved |
|---|---|
| C01 | field offsets of each Header class computed from the tables, against absolute offsets in `Spec.v`; case analysis of `get_header` |
| C02, C04–C08 | case analysis of `get_header` against `Spec.v`; C06, C07: witness for the refutation, exact characterisation for all files |
| C03 | arithmetic on all aversion values; decimal text is injective |
| C09–C11, C14, C17 | induction over the list of samples; every read of a well-formed log returns what was written, every cut fails or ends |
| C12, C13, C15, C20 | the generator drained = a recursive function `D`; induction over the remaining bound |
| C16 | invariant over histories of next/close/throw |
| C18, C19, C21 | loop induction over counts |
| C22–C25 | induction over struct types; finite check of all shipped tables by computation |
| C26–C30 | the same for `struct_to_dict`; UTF-8: induction over the bytes |
| C31–C35 | rows computed against absolute offsets in `SpecRows.v`; induction over cores, slots, tasks |
| C36–C39, C43 | `PropReader.v`: loop over the generator = samples of the drained run; the rest by composition; gzip members by parser monotonicity |
| C40 | invariant over access/mutation histories in `HeaderCache.v` |
| C41 | `inflate s = Some (d, u)` iff `zlib_stream s d u`: each reader of bits is related to a relation between result, bits taken and bits that follow (`Rd`), combined through the parser; canonical Huffman codes by the first code of each length, Kraft sums for the accepted code sets; the bit parser is monotone in its input (prefix fails, suffix is ignored); stored-block writer round trip |
| C42 | printer/parser round trip by induction over values |
| C45 | the consumption loop on a classified command line, by induction over option groups; an invariant of the loop for arbitrary command lines |
| C46 | composition of C45, C43 and C38 |
| C47 | composition with the generator's drained run |
| C48 | forward simulation: program state (iterators, file) to a queue of unread samples shared by followers; induction over the schedule |
| C49 | composition of C37/C38 and C42; float text: the decimal chosen lies in the rounding interval of the double (rational arithmetic), digit/number grammar by induction |
| C50 | `gunzip l = Some d` iff `gzip_data l d`: header readers related to byte relations, the DEFLATE part from C41; the shift register of `crc32` is the mirrored remainder of polynomial division over GF(2) (induction over the bits), uniqueness of the remainder by degree; a difference within 32 bits is not divisible by the CRC polynomial |
| C51 | `rows_of` (FormatProofs.v) computes the rows of a struct type from the model's layout; by induction over types, following a path gives exactly the value of its row, in the object and in the dictionary; `rows_of` of every class equals the table by evaluation in the kernel; samples and printed entries from C09 and C49 |
| C52 | the list of lengths computed by the check, field by field; hexadecimal digits by induction; texts without commas are separated uniquely |
| C53 | the reader looks at the version number only through two comparisons and the version table, so equal outcomes of those give equal runs (induction over the bound) |
| C54 | induction over the RFC 1951 relation: a match needs two bits for at most 258 bytes; consumption of each read, induction over the bound |
| C55 | memory as a list of blocks, the functions again with references; simulation: every function only adds blocks, results are fresh and disjoint; invariant over programs |
| C56 | the functions as interaction trees over read/readinto; well-behaved objects simulate the file of Model.v; for any object, symbolic execution of one sample and induction over the bound |
| C57 | the parse tree of the source run by an interpreter; each function stepped through symbolically for arbitrary memory, loops by induction; a simulation between the suspended source generator and the model's state machine, induction over histories |
| C58 | the same for struct_to_dict: induction over the type for the recursive call, over fields and array elements for the loops; the result related to the model's JSON value by a relation that also says which cells it occupies |
| C59 | the same for the parse_* generators: the dictionary displays of the source are read off into entries (checked by reflexivity against both source and model), one lemma per kind of entry and of loop, type checks over all versions by computation, induction over items and over histories |
| C60 | the same for parse_file and main: invariant of the `samples` list (all its entries are JSON values in cells made since the call, of bounded depth), one lemma per branch of the loop body, induction over the generator's yields, the parseables and the files; json.dumps and print are built-ins of the interpreter given by the model of Json.v; parse_args is built in (its result is the namespace, see Args.v) |
| C61 | `SpecDamage.v`: one block of one sample replaced by other bytes of the same length; a slight change of data; deflate blocks whatever checksum follows. `PropDamage.v`: the reader on a rejected block, case by case over the four blocks (as for truncation, C10); what follows deflate blocks does not affect their meaning (induction over `deflated`) and they have one meaning (C41), so only the original checksum fits; Adler-32 is linear, and 65521 has no common factor with a difference of bytes, so a change of one or two near bytes changes it. |
| C62 | `PyClasses.v` runs the struct modules (`SourceClasses.v`). `SpecClasses.v`: the module and the struct of each part; which object of the modules is which value of the interpreter. `PropClasses.v`: one kernel evaluation compares the classes that the run defines with the tables; what a log may contain (all bytes, all paths) then follows from C51 (`C62_format`), and what the interpreter of C57–C60 builds in as class attributes is shown to be what the text defines. |
| C63 | `PyArgs.v` runs the text of parse_args (`SourceArgs.v`): the calls build a parser, a general engine applies it to the words. `PropSource5.v`: on the parser of the text the engine simulates `Args.v` step by step (a map between the two states commutes with every step), so that C45 and C60 carry over. |
| C64 | `PyPackage.v` runs the top-level statements of all modules (`SourcePackage.v`). `PackageProofs.v`: six states are closed under importing any module, each transition and what the states bind is evaluated by the kernel once; induction over the list of imports. `PropPackage.v`: success for all sequences, names do not depend on the order, the public functions, the struct modules are those of C62, and every name that the interpreter of C57–C60 uses is bound to what it uses. |
| C65 | `SpecPackage.v`: the classes that the versions give for a kind; classes that can be had from the struct modules. One evaluation compares both with each exported type; for samples, C04 and the sizes of samples say which class each struct has. |
| C66 | `SpecClient.v`: README.md's programs as syntax; the contract of the body of a caller's loop (an invariant); the two numbers at byte offsets that are the same in all versions. `SrcClient.v`: a rule for `for` loops of programs over generate_statistics, by induction over the samples of the run. `PropClient.v`: the programs, on any file, on truncated logs, on whole logs. Any statements that print a line of the two numbers, or raise if the divisor is 0, stand for README.md:89-90; C68 puts the real ones there. |
| C67 | `SpecHand.v`: a loop over get_record, get_sstat, get_tstat and get_cstat, as syntax; where pieces are in a block. `SrcHand.v`: a turn of that loop does what the model's read_sample does; the loop, by induction over its bound, what generate_statistics does. `PropHand.v`: the four functions on any bytes (source text, closed results), the loop of any program, README.md's first program by hand. |
| C68 | `SpecUsage.v`: the printed text over the rationals: three roundings to the nearest double (`SpecFloat.v`), the nearest decimal with two digits. `PyFloat.v`: what CPython does. `UsageProofs.v`: division, subtraction, multiplication by 100 and formatting round as specified, for all integers in range; the text is unique; its error; rounding keeps the order. `PropUsage.v`: README.md's first program as generated from its text, on any file, on truncated logs, on whole logs. |
| C44 | every operation of the reader is classified by the exceptions it can raise |

Refuted expectations (C06, C07, C11 in part, C28, C35, C39, C45 and C48 in part) get a `_refuted` theorem with a witness plus a theorem that says exactly what does hold.

## Trusted base

* Coq 8.16.1's kernel, including `vm_compute`.
* `Print Assumptions` of every theorem named in MANIFEST.json prints "Closed under the global context": no axioms, neither own nor of the
  standard library, are used.
* Loading `Coq.micromega.ZifyBool` and the like also loads `Coq.ssr.ssrunder`, whose module type `Under_rel` has parameters that a listing of
  the environment shows as axioms: `Coq.ssr.ssrunder.Under_rel.Under_rel`, `.Under_rel_from_rel`, `.Under_relE`, `.Over_rel`, `.over_rel`,
  `.over_rel_done`, `.under_rel_done`. They belong to the standard library and no theorem depends on them.
* The reading of the Python source documented by the citations in the model files (the struct tables are produced from its text by `tools/gen_structs.py`),
  and the reading of CPython's ctypes, zlib, gzip, UTF-8 and json behaviour stated above.
* For the struct definitions, since C62: `PyClasses.v` (its head lists the simplifications) and `tools/gen_source.py`; `tools/gen_structs.py` is no longer trusted.
* For C68: `PyFloat.v` as the reading of CPython's integer division, float subtraction and `.02%`; C68's theorems show that it rounds as IEEE 754 says.
* For C64 and C65: `PyPackage.v` (its head lists the simplifications) and `tools/gen_source.py`.
* For C57–C60, instead of the hand reading of these functions: the interpreter `PyEval.v` (what it builds in and simplifies is listed at its head) and `tools/gen_source.py` (drops docstrings, comments, annotations; everything else it does not know is an error).
* For C51, the tables in `SpecFormatTables.v`: they state the format. They are written by `tools/gen_format.py` from the struct definitions with offsets given by CPython's ctypes, not by the layout function of the model, so they also check the layout function.

## What the model shows about the code (findings)

* A right-magic header of an unknown version with major < 2 or minor < 3 makes the compatibility check raise AttributeError, not ValueError (C06).
* A header cut after its length fields is accepted, zero-filled (C07).
* `get_record` never fails on missing bytes; in strict mode a cut that leaves the compressed length zero is silent (C11).
* A negative count field lists elements from the front up to the count-th from the end (C28).
* Names cut in the middle of a UTF-8 character make parseables raise UnicodeDecodeError and lose the whole output (C35, C37).
* ".gz" anywhere in the path selects gzip (C39); a gzip file that ends early raises and nothing is printed although complete samples were read (C38).
* A zlib.error raised by the gzip layer while samples are read is taken for truncation (C38).
* Versions "3.x" with minor < 11 would be read without cgroups and lose the position after the first sample (the gate compares major and minor separately; C53).
* NaN and infinities are printed as `NaN`/`Infinity`, which is not JSON (C42).
* The PRG column "dead_threads" is read from the uninterruptible-sleep counter (C33: `prg_spec`).
* `parse_PRD` exists but is not reachable from the command line.
* `-P` takes every following word that is not an option, so `atoparser -P CPU file` always exits with status 2; files on both sides of an option are
  rejected; `--` makes every file name usable (C45).
* `isinstance(None, atoparser.CStat)` and `isinstance(None, atoparser.CGChainer)` are true: the exported unions include the None of versions without cgroups (C65).
* `parse_file(..., ["PRD"])` raises KeyError although the parser exists, unless the log has no samples (C47).
* A lenient reader that polls while atop is writing can lose a sample without any error (C48).
* `get_cstat` steps through the cgroups by the length each struct announces; a struct announcing length 0 is returned again and again, up to 65535 times (C54).
* A cgroup struct that announces a negative length sends the reader backwards; if the sum is negative it counts from the end of the data (C19).
* The header passed to generate_statistics is used live: assigning to its length fields between two samples changes how the next sample is read (C55).
* get_record does not look at how many bytes readinto gave: an object that gives fewer than 20 bytes of a record before the end (an unbuffered pipe or socket) ends iteration normally, even in strict mode, and the remaining samples are lost silently (C56).
