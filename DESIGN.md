# Formal model of genieutils-py in Rocq (Coq 8.16.1)

## 1. What is modelled

Everything in `/repo/src/genieutils` that computes: `datatypes.py`, `versions.py`,
`common.py` and all record classes (`effect`, `sound`, `playercolour`, `task`,
`unitheaders`, `terrainrestriction`, `techtree`, `terrainblock`, `tech`,
`graphic`, `randommaps`, `unit`, `civ`, `datfile`), plus `DatFile.parse/save`
over an abstract file system with an abstract raw-deflate codec, plus the
`dataclasses.asdict` tree and its JSON text printed by `scripts.py`.  Readers and writers are
transcribed *separately* from the Python source (never one derived from the
other), function by function, with file:line citations.

### Representation
| Python | model |
|---|---|
| `int` | `Z` (unbounded) |
| `bytes`, `memoryview` | `list byte` (Coq's 256-constructor `byte`, so no validity side condition) |
| `float` | `f64`: the 8 bytes of the IEEE binary64 pattern (NaN payloads and signed zeros kept) |
| `str` | list of code points |
| dataclass | Coq record, one field per Python field, `Class_field` |
| `list`/`tuple` | `list` (the distinction is dropped) |
| `X | None` | `option X` |
| exception | `Err e` in the result type `res` |
| `ByteHandler` | record `content`, `offset`, `version` + a *ghost* list `losses` |

Reader type: `rd A := handler -> res (A * handler)`.  The ghost `losses` list is
never read by the model; primitives append an event when they drop information
(short read, trailing NUL stripped from a debug string, negative count, pointer
not 0/1, signalling NaN quieted).  It exists only so that C04 can be stated.

### Simplifications (also noted at the definitions)
* Fields are typed in `M_*.v`: an `int` field holds a `Z`, a `float` field an `f64`.  Python
  would let a user store anything; what of this is covered by the source-level semantics (bools, ints for
  floats, tuples for lists) is C48; other wrongly typed values are out of scope.
  `invulnerability_level = 0` in `Creatable.from_bytes_78` is the float `0.0`.
* `==` of dataclass objects (`Equal.v`): the two operands are loaded separately, so they share no float object
  (Python takes a reference to one and the same object as equal without comparing, which matters for NaN).
* Objects are immutable values in `M_*.v`.  Object identity, sharing and mutation are in the source-level
  semantics (`Py.v`), and C46/C47 show that for saving they make no difference.
* `assert` statements are assumed enabled (no `python -O`).
* Little-endian host for the record classes (both byte orders are modelled at
  `Float` level, C36).  CPython float conversions quiet signalling NaNs, as
  CPython 3.11-3.13 on x86-64/ARM64 does.
* Memory exhaustion, recursion limits and running time are not modelled.
* zlib is a pair of functions `deflate`/`inflate` that the theorems quantify over; what is needed of
  them (`inverts`: inflate undoes deflate; `detects_cuts`: inflate refuses a proper prefix;
  `never_empty`) is written as a hypothesis in the statement of each theorem that needs it, and
  `Props_FS.v` shows that the stored-block codec meets all three.
* `dat-to-json`: the dictionary (`Dump.v`) and the text of `json.dumps(..., indent=2)` (`Json.v`) are modelled;
  argument parsing is not.  `float.__repr__` is a parameter; theorems that need it assume `reads_back` (it is a
  float literal and `float()` gives the same float back), which exact decimal literals are shown to meet.

### Ghost state and two readings of one Python function
* `note c l` records a loss; no modelled function looks at `losses` (the theorems about readers that hold
  for every `ls` say so).  Besides those of the primitives there is one in `DatFile.from_bytes`: a terrain
  count that is not 0 although there are no terrain restrictions (`TerrainCount`), because the count is
  written back as that of the first restriction.
* `read_class_array` is modelled twice: `read_class_array` (a negative count is recorded as a loss) and
  `read_class_array_kept`, for the calls whose count the caller keeps in a field of its own, where nothing
  is lost.  They differ in the ghost only.
* An `int` stored by the user where a float belongs is written as the float of the same value
  (`f64_of_Z`), as `struct.pack('<f', 3)` does.

## 2. Specification, separate from the model
| file | what it says |
|---|---|
| `Wire.v` | *cells* (u8, i16, i32, u32, s8, binary32, debug string, padded string) with closed-form bytes; `encode`, `cells_ok` |
| `Layout.v` | for each record class a table `Class_layout v x : list cell` of what is on disk |
| `Shape.v` | the structural conditions under which an object can be read back; `DatFile_wf` := every cell representable and the shape holds |
| `Spec.v` | `to_bytes`, `from_bytes`, `cycle`, ... on whole files |
| `Size.v` | closed formulas for the number of bytes of each record |
| `FloatSpec.v` | the rational numbers that binary32/binary64 patterns stand for; nearest-even rounding |
| `Flat.v` | the tables for objects whose fixed tuples have the wrong length |
| `Faults.v` | what can make an object impossible to save |
| `Stored.v`, `Convert.v` | the part of an object that a version stores; what changing the version does |
| `Update.v`, `Edit.v` | assignment of one attribute; the programs of README.md |
| `Rounded.v` | an object with every float rounded to binary32 |
| `FS.v` | file systems, the steps of `save`, crash points |
| `Sched.v` | several `save`s and `parse`s interleaved, file handles with positions |
| `Dump.v` | the tree that `dat-to-json` prints |
| `Json.v` (second half) | a JSON parser (RFC 8259) |
| `Sample.v` | a non-trivial object of every class in every version, used to show that hypotheses are met |

## 3. How the properties are proved
Relations with one composition rule each, instantiated for every class (`Codec*.v`, `P_*.v`):
* `Lay w cs`: the writer's result is the encoding of the table (it raises iff a cell is not representable).
* `Parses v cs m x`: the reader `m`, run on the encoding of `cs` anywhere in a buffer, returns `x`, consumes
  exactly that and loses nothing.
* `Fwd v m K` / `Reads`: whatever bytes `m` is run on, if it returns `x` then `x` has the shape, and, if
  nothing was lost, the bytes consumed are the encoding of its table.
* `Codec tb fb lay shape arity` bundles the three for a class; `Theory.v` derives the round trips.
* `Rd S m`: `m` raises only exceptions in `S` and looks only at the bytes it consumes (`RaiseR.v`);
  `Raise.v` is the same for writers.
* `run`/`reads`/`eats` (`Parts.v`, `Props_Cut.v`, `Props_Losses.v`): runs section by section.

| id | where | how |
|---|---|---|
| C01 C02 C03 C04 C05 C33 C35 | `Props_Dat.v`, `Props_Slots.v` | `Codec` of `DatFile` |
| C06 C07 | `Props_Classes.v`, `Props_Size.v` | `Codec` of each class; `FlatP.v` drops the shape condition |
| C08 | `Props_Size.v` | size formulas against the tables |
| C09-C16 C36 C37 | `Props_Prim.v` | codec theorems on the primitives; `FloatP.v` for rounding |
| C17 C20 C21 C22 | `Props_Version.v`, `Props_Slots.v` | `Reads` of units; `StoredP.v` |
| C18 C19 | `Props_Convert.v` | tables and shapes of converted objects (`ConvertP.v`, `ConvertE.v`); any version to any version |
| C23 C24 | `Props_Range.v` | every numeric field and every count, generated |
| C25 C39 C40 | `Props_Errors.v` | `Raise`, `Rd` |
| C26 | `Props_Mistakes.v` | flat tables: saving succeeds; shape: the result is another object |
| C27 C28 C29 | `Props_FS.v` | invariant over the steps of `save` |
| C30 | `Props_Cut.v` | sections; readers at the end of the data |
| C31 | `Props_Local.v` | tables, one theorem per field |
| C32 | `Props_Readme.v` | the README programs as functions |
| C34 | `DumpL.v`, `Props_Dump.v` | injectivity of the tree; the int that old versions have in one float field is undone by a function on trees |
| C38 | `Props_Losses.v` | a file for each loss in each version |
| C41 | `Props_Rounded.v` | tables of rounded objects |
| C43 | `Props_Sched.v` | invariants over all interleavings; simulation by the sequential `save` of `FS.v`; two explicit bad schedules |
| C44 | `Props_Lists.v` | the table of the whole file is split into those of its parts; each part by the laws of its class (C06) |
| C45 | `Equal.v`, `Props_Equal.v` | the generated `__eq__` per class is a comparison of dump trees; induction on trees; the table of an object with changed floats (`Floats.v`, shared with C41) |
| C46 C47 C48 | `Py.v`, `Source.v`, `PyPure.v`, `PyPureSim.v`, `PyW*.v`, `Props_Source.v` | a deep embedding: big-step semantics of the Python subset on a heap of mutable objects, and the text of the library as data; a heap-free interpreter for programs that change nothing, related to the heap by a simulation for every program; then each `to_bytes` symbolically run |
| C49 C50 C51 C52 | `PyR*.v`, `PyTree.v`, `PyLoad.v`, `Props_Load.v` | the same semantics: each `from_bytes` and each method of `ByteHandler` symbolically run on a heap, following the typed reader step by step (`ok`), with an ownership predicate (`own`) for what was built: the new objects form a tree of locations that did not exist before; unique paths and local edits follow from ownership; `invulnerability_level` (int 0 before 8.4, float from 8.4) by carrying the version along (`Era`) |
| C53 | `Props_Programs.v` | the two README programs (printed from README.md into `Source.v`) symbolically run on any loaded graph |
| C54 | `World.v`, `Props_World.v` | the statements that reach outside run to a tree of requests; a small-step relation for what the operating system answers; the text of `save` simulates, and is simulated by, the steps of `FS.v` |
| C55 | `PyKinds.v`, `PyEdit.v`, `Props_Edits.v` | a small language of in-place changes (assignments to attributes and items, pop, append, loops, local names, conditions; values may be computed, new objects or deep copies) with its Python text and its meaning on contents; structural induction on programs: running the text in any heap carries out the meaning on the owned tree; then C54 for the whole script; for arbitrary statements the order of effects, with an invariant of all programs (`PyKinds.v`: objects keep their class) by induction on text and recursion limit |
| C56 | `SourceCli.v`, `Cli.v`, `CliL.v`, `CliS.v`, `Props_Cli.v` | the text of `dat_to_json` run on top of `World.v`, with `argparse` (positional arguments), `dataclasses.asdict` and `json.dumps` as functions on the heap; `asdict` of an owned tree is the tree of `Dump.v` (class by class, against the field lists of the source), `dumps` on the heap is `dumps` of `Json.v`; then an invariant of the small steps of printing |
| C57 | `Many.v`, `Props_Many.v` | the texts of C55 and C56 as processes over shared files: a small-step relation with an opening, a read of some bytes at the position reached, a write of some bytes at the position reached (zeros fill a gap), a close and a print of some characters as single steps, any of which may fail; a system is any sequence of steps of any processes. Isolation: by induction on the steps of the system, each process simulates a run of `World.v` alone, for programs that do not write each other's files (`apart`, proved of the texts from their shapes); the theorems of C55 and C56 then hold of every process. Progress: by induction on what the process still asks for. A case with two scripts and dumps run to the end, and one in which the condition on the files is violated and a dump fails. |
| C58 | `PyNew.v`, `PyCopy.v`, `PyEdit.v`, `Props_Copies.v` | `copy.deepcopy` in the heap semantics (a memo of the objects already copied); by induction on contents, of a tree that owns its objects it makes a tree of new objects with the same contents, so the objects of the two trees are disjoint; every record of the library is copyable; then the theorem about in-place changes (C55) applied to either tree keeps the other |
| C59 | `Props_Types.v` | the expressions a user writes (`Int.from_bytes(b)`, `Int.to_bytes(z, length=k, signed=s)`, `Float...`, `String...`, `v < w`, `Version(s)`, `ByteHandler(memoryview(b))`, `data.read_int_16()`, ...) run on the source text in any heap, with each defaulted argument given or left out; by symbolic execution of the text, then the facts about codecs of C09-C16 and C37. The class array readers are in C49 |
| C60 | `PySame.v`, `Props_Same.v` | `==` as Python does it on the heap (`py_eq`: identity first, the generated `__eq__` over the fields of the class in the source text, lists by length and items, numbers by value); by induction on the depth of the dump it is a comparison of trees, per class that of C45; two loads, load-save-load, a file and its changed copy |
| C42 | `Props_Json.v`, `PyJson.v`, `Props_PyJson.v` | the JSON parser run on the printed text, by induction on the tree; the same for the parser with Python's three extra words (`PyJson.v`, a specification: it agrees with the strict one wherever that succeeds) |

All properties are proved; none is marked partial.

## 4. Trusted base
* Coq 8.16.1's kernel.  `vm_compute` is used in proofs (part of the kernel); `native_compute` is not.
* `Print Assumptions`: every theorem file ends by printing the assumptions of a tuple of all its theorems;
  each prints "Closed under the global context": **no axioms at all** are used.  (Loading the standard
  library's `ssreflect` plumbing brings seven constants `Coq.ssr.ssrunder.Under_rel.*` into scope, which a tool
  that lists all axioms of loaded libraries will show; no theorem depends on them.)
* The reading of the Python source embodied in `M_*.v`, `Common.v`, `DataTypes.v`, `Versions.v` (readers and
  writers transcribed statement by statement with `tools/gen_model.py`, which parses /repo with `ast`; each
  definition cites its lines), `FS.v`, `Dump.v`, `Json.v` (first half: CPython's json encoder), `Edit.v`, `Equal.v`
  (the `__eq__` that `dataclass` generates).
* The CPython semantics stated in `PyInt.v`, `PyStr.v`, `PyFloat.v`, `PyStruct.v`: `int.to_bytes`/`from_bytes`,
  UTF-8 encode/decode (strict), `struct` formats with '<', float<->binary32 conversion, slicing past the end.

* For C46-C60: the big-step semantics of the Python subset in `Py.v` (evaluation order, attribute lookup through
  instance, class and one level of base classes, properties, keyword and default arguments, comprehensions, truth values, comparisons,
  `struct`, `int`, `bytes` and `str` methods, item assignment on lists, `copy.deepcopy` with its memo (the name `copy` stands for the
  module, as after `import copy`), frames left on the stack), and `tools/gen_src.py`, which prints the
  syntax trees that Python's own parser gives for /repo as Coq terms (`Source.v`) and stops at anything it does not know.
  There the typed model is no longer trusted: it is proved to agree with the text.

### Not modelled
options and error messages of `argparse`, and the process exit code, of `scripts.py` (a single positional argument is modelled, C56); the DEFLATE algorithm itself; object identity and
aliasing outside C46-C60; values of the wrong Python type (e.g. a string in an int field); `python -O`; running time and memory;
big-endian hosts for whole records (floats are, C36); an object that is changed by another thread while it is saved.

## 5. Wrong programs
`seeded/LOG.jsonl` records the edits tried on scratch copies of the model, which theorems failed, and what was
tightened.
