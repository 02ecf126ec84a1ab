# Formal model of gostcrypto (drobotun/gostcrypto) in Rocq/Coq 8.16.1

All Coq sources are in `rocq/theories`. `properties.jsonl` lists the properties,
`MANIFEST.json` maps each of them to theorems, `seeded/LOG.jsonl` records the
mutation tests of the theorems.

Four kinds of files:

* **model**: definitions that follow the Python source function by function; every
  definition cites file and lines;
* **specification** (`Spec*.v`): what the standards or the documentation say. These
  files do not import the model of the code (`SpecOidErr.v` and `SpecNew.v` use the
  exception names and value types of `PyBase.v`; `SpecHashHist.v`, `SpecHmac.v`,
  `SpecPbkdf.v`, `SpecRandom.v` build on `SpecStreebog.v`);
* **lemmas** (`*Facts*.v`, `*Lemmas.v`, `*Props*.v` other than `Prop*.v`, ...);
* **property files** (`Prop*.v`): the theorems `Cxx_...`, each followed by
  `Print Assumptions`, and next to them `Cxx_example...` with concrete values that
  meet the hypotheses.

A property that the code does not have is stated in full as a `Definition` (or in
the theorem itself) and refuted: `Cxx_..._refuted : ~ claim`, with a theorem beside
it that says what the code does instead. In `MANIFEST.json` such a property has
status `proved` with a note "False as a property of the library: refuted".

## 1. How the model is built

### 1.1 The Python fragment (`PyBase.v`, `PyState.v`, `PyLoop.v`)

* A `bytes`/`bytearray` is `list Z`; `bytes_ok l` says every element is in 0..255.
  A Python int is `Z` (unbounded). Arguments tested with `isinstance` are `pyval`
  (`VBytes`, `VStr`, `VInt`, `VNone`).
* Exceptions are values: `res A := Ok a | Err e`; `exn` has one constructor for each
  built-in exception that can occur (`IndexError`, `ValueError`, `OverflowError`,
  `ZeroDivisionError`, `TypeError`) and for each library exception class with its message.
* Indexing and slicing (`x[i]`, `x[a:b]`, negative indices) are functions that
  return `IndexError` or clip as Python does; an assignment to an element outside
  0..255 is a `ValueError`. None of these is assumed not to happen.
* A method is a function from the object to `(result or exception) * object`
  (`M S A := S -> res A * S`), so what an exception leaves behind is visible.
* `for` over `range(...)` is a fold over the list of indices. A `while` loop that may
  not end takes a number of iterations and gives "no result yet" when they are used
  up (`outcome`, `PyLoop.v`); "terminates" is "gives a result for some number", and
  non-termination is "gives none for any number".

### 1.2 Value models

| Source | Model | Remarks |
|--------|-------|---------|
| `utils/utils.py` | `Utils.v` | every function |
| `gostoid/oid.py` | `Oid.v`, `OidTable.v` | strings are ASCII; `str.split`, `int(str)` are modelled (`int` with blanks, signs, underscores; without CPython's digit limit) |
| `gostcipher/gost_34_12_2015.py` | `Kuznechik.v`, `Magma.v`, `CipherTables.v` | tables generated from the source text |
| `gostcipher/gost_34_13_2015.py` | `Modes.v` (ECB, CBC, CFB, OFB, CTR), `Mac.v` (MAC, `new`), `CipherObj.v` | one record type for the five mode classes, with the class as a field; an attribute a class does not have is an unused field |
| `gosthash/gost_34_11_2012.py` | `Streebog.v`, `StreebogTables.v` | tables generated from the source text; `copy` and `deepcopy` return the value |
| `gosthmac/r_50_1_113_2016.py` | `Hmac.v` | |
| `gostpbkdf/r_50_1_111_2016.py` | `Pbkdf.v` | |
| `gostrandom/r_1323565_1_006_2017.py` | `Random.v` | `os.urandom` is an argument; the limit, a float for `size_s` above 64, is modelled by its value (1, or 0 when `2**e` underflows) |
| `gostsignature/gost_34_10_2012.py` | `Sig.v`, `SigCurves.v` | curve dictionary = record of optional integers; curves generated from the source text; `os.urandom` is the argument `rand`, a sequence of answers; the recursion of `_invert` is given as many nested calls as C80 proves to be enough |

`hexdigest` and `hexderive` are modelled as the hexadecimal text of `digest` and `derive`.

### 1.3 Buffer model (`Heap*.v`)

The value models cannot express that two names denote one `bytearray`. For the
ciphers, modes and MAC there is a second model in which a buffer is an address in a
heap (`Heap.v`: `Imm l` is an immutable `bytes` object, `Ref a` a `bytearray`).
`HeapCipher.v` and `HeapModes.v` follow the same source lines as the value models, with
allocation wherever the source makes a new object, and in-place writes wherever it
writes into one. `HeapHmac.v` does the same for the *stored* buffers of HMAC (`_key`)
and PBKDF (`_password`, `_salt`); there the hash object is a value, the constants
`_I_PAD`, `_O_PAD` are immutable, and `derive` is the value method applied to the present
contents of the stored buffers. `deepcopy` of an object copies its buffers.

`HeapWorld.v` defines programs that create any number of objects, call their methods
in any order, read attributes, and write into any buffer they hold, with two
meanings: on buffers (`real`) and on values (`ideal`). `HeapWorldFacts.v` proves that the
two agree (C101), and `AliasLemmas.v`, `PropAlias.v` say what is and what is not shared
(C98-C100).

`HeapHash.v` is the buffer model of hash objects and generators, `HashWorld.v` the
programs that use them; `HeapObjects.v` holds the part of the argument that does not depend
on the kind of object (C119, C120). This also justifies that HMAC's hash object is a value
in `HeapHmac.v`.

`HeapSig.v` is the buffer model of the methods of signature objects. Their attributes are integers,
so a call on an arbitrary heap is the whole story and no model of programs is needed. `for` loops that only read
(in `compare`, `compare_to_zero`) use the value model on the copy that the function makes. `int.from_bytes` reads.

`Threads.v`, `ThreadsRandom.v`, `ThreadsHash.v`, `ThreadsMac.v`, `ThreadsPbkdf.v`, `ThreadsHmac.v`, `ThreadsModes.v`, `ThreadsClear.v`, `ThreadsHashDigest.v`, `ThreadsHmacDigest.v`, `ThreadsRandomClear.v` and `ThreadsOwn.v` cut `encrypt` and `decrypt` of the five modes, `random` and `clear` of generators, `update` of hash, MAC and HMAC objects, `reset` of HMAC objects and `derive` into the statements that read or assign
attributes of the object, and run a pool of such calls under a schedule (a list of thread numbers). `C157_alone`,
`C158_alone` to `C164_alone`, `C167_alone` and `C168_alone` tie these to the functions of `Modes.v`, `Random.v`, `Streebog.v`, `Mac.v`, `Pbkdf.v` and `Hmac.v`. Calls of methods of
contained objects and the deep copy made by `digest` of MAC, hash and HMAC objects are one step (in `ThreadsHmacDigest.v` the calls of the contained hash object by `update` are cut further, into its statements). A switch of threads within a statement is not modelled; the schedules that are
modelled are all possible, so that the refutations stand; in `C164`, where every thread has an object of its own, a finer cut would change nothing.

### 1.4 Step model (`Trace*.v`)

For the questions "what does the course of the computation depend on" there is a third
model: a computation is a list of steps together with its result. A step is a call of a
function, the outcome of a test (an `if`, a `while`, or whether a `for` loop has another
element), or the reading of an element of a byte string or table; each carries the source
file and line (`SpecTrace.v`). `Trace.v` follows `compare`, `compare_to_zero`, `sign`,
`public_key_generate` and everything the last two call; `TraceCipher.v` follows `encrypt` of both block
ciphers, `TraceCipher2.v` their `__init__` and `decrypt`; `TraceHash.v` follows `new`, `update`, `digest` of hash objects and HMAC (without the steps of
`deepcopy` and of `ObjectIdentifier`); `TracePbkdf.v` follows `derive`, `TraceRandom.v` follows `random`, `TraceModes.v` follows `encrypt` and `decrypt` of the five modes, `TraceMac.v` the MAC (constructor, `update`, `digest`). Forgetting the steps gives the value model (`C115_results` to
`C118_results`, `C125_results`, `C127_results` to `C129_results`, `C147_results`, `C148_results`, `C149_results`, `C150_results`). What a built-in operation (`*`, `%`, `+` on integers, slicing)
costs is not part of a step, so "same steps" is necessary for constant time, not sufficient;
the refutations need no such caution.

### 1.5 Programs of the documentation (`Programs.v`)

The programs of `docs/source/intro.rst` that work on files: hash, HMAC, MAC, encryption in
CTR mode (also with other modes and with `decrypt`), and signing and verifying with the digest
of a file. A file is its contents; `read(n)` returns the next n octets, all of them if n is
negative. The loops are not bounded: a program has a number of steps as argument, and the
theorems say what it returns for all sufficiently large numbers (`eventually`).

### 1.6 Finalisers (`Final.v`)

The initialisers once more, with the attributes that exist when they end normally or with an
exception, and the outcome of every `__del__` that the reference counts of CPython cause:
of the old cipher object when `GOST34132015cbc.__init__` replaces it, of a half-made object, of an
object given up after any calls. An `AttributeError` is the outcome `NoAttribute`.

## 2. Method per property

| ID | Model | Method |
|----|-------|--------|
| C01-C04 | `Utils.v` | induction on lists / integers; C04 refuted |
| C05-C09, C96 | `Oid.v` | independent DER decoder, grammar of `int` texts (`SpecInt.v`); C06, C07 refuted, with exact characterisations |
| C10-C15 | `Kuznechik.v`, `Magma.v` | refinement to specifications with GF(2^8) arithmetic / 32-bit integers; finite sweeps over byte tables lifted to all bytes |
| C16-C35, C43-C45, C97 | `Modes.v`, `Mac.v` (`new`) | refinement of each mode to a list-of-blocks specification over an arbitrary block permutation; histories of calls; invariants of reachable objects |
| C36-C42 | `Mac.v` | invariant over update histories relating the state to the concatenated message |
| C46-C55 | `Streebog.v` | tables against the 64x64 matrix by linearity; sums modulo 2^512; invariant over update histories |
| C56-C63 | `Hmac.v` | on top of the hash invariant |
| C64-C70 | `Pbkdf.v` | on top of HMAC |
| C71-C78 | `Random.v` | invariant over call histories |
| C79, C80 | `Sig.v` | extended Euclid: strong induction, Fibonacci bound |
| C81, C82 | `Sig.v` | group law over an arbitrary field of characteristic other than 2 (`CurveGroup.v`), instantiated at Z/p |
| C83-C88, C90-C95 | `Sig.v` | algebra in the group; counterexamples for refuted claims computed on small or built-in curves |
| C89 | `SigCurves.v`, `Sig.v` | Pocklington certificates for p and q, order of the base point, MOV condition, computed with `BigZ` |
| C102-C107 | `Sig.v` | group algebra (`SigMore*.v`); witnesses computed on the toy curve, on parameter set B and on a curve with even q |
| C98-C101, C112 | `Heap*.v` | simulation between buffers and values; C112: clear only allocates |
| C119, C120 | `HeapHash.v`, `HashWorld.v` | simulation between buffers and values |
| C108 | `Streebog.v` | `hash_final` called twice, against `SpecHashFinal.v` |
| C109, C110 | `Modes.v` | gamma as a list of blocks common to both messages (`ModeReuse.v`); injectivity of the block cipher and of the counter |
| C111 | `Pbkdf.v` | no computation reads the password attribute (`PbkdfSame.v`) |
| C113 | `Random.v` | from C72 |
| C114 | `Trace.v` | induction on the strings |
| C115, C116 | `Trace.v` | an observer (`recover`) run over the steps of every function; erasure to the value model |
| C117, C118 | `TraceCipher.v` | what a function on steps extracts from each round (`emits`), instantiated with "everything but indices" and "indices only" |
| C127-C129 | `TraceCipher2.v` | as C117, C118; the key schedule of Kuznechik run backwards (`SpecTrace3.v`) |
| C125 | `TraceHash.v` | a relation between two computations: same steps but for look-up positions, related results (`TraceHashFlow.v`) |
| C126 | `TraceHash.v` | positions read by each function (`gives`), blocks shown by a list of positions (`shows`, `TraceHashShow.v`) |
| C121 | `Sig.v` | the sequence of answers of `os.urandom` is a list; counting over all lists of byte strings (`SpecDraw.v`, `DrawLemmas.v`) |
| C122 | `Random.v` | from C72: the register is a counter, so earlier outputs are computed from it |
| C130-C136 | `Programs.v` | the pieces a file is read in (`ProgramFacts.v`), then the properties of the modules for histories of calls (C50, C56, C36, C24, C65, C71, C83) |
| C137 | `Magma.v`, `Modes.v` | the schedule of a palindromic key is its own reverse (`WeakKeys.v`) |
| C138 | `Random.v` | lockstep simulation of two generators (`RandomLong.v`) |
| C139 | `Modes.v` | the list-of-blocks specifications run backwards (`ModeOnto.v`) |
| C140 | `Final.v` | the initialisers with partial attributes agree with the ones of Mac.v, Hmac.v, Pbkdf.v, Random.v (`FinalFacts.v`) |
| C141 | `Magma.v`, `Modes.v` | the highest bit of a sum modulo 2^32 (`Related.v`), through the conformance of the modes (C21) |
| C142 | `Mac.v` | CBC-MAC from two different values differs; K1 = K2 only for the zero block (`MacMore.v`, `MacMore2.v`), through C38 |
| C143 | `Mac.v`, `Modes.v` | the last block of a CBC encryption is a CBC-MAC; the attacker is a function of `encrypt` (`forge`, `MacMore2.v`) |
| C144 | `Modes.v` | CFB and CBC encryption of zeros is the OFB gamma (`ModeCross.v`, `ModeCross2.v`), through C21-C24 |
| C145 | `Random.v` | the starting registers as numbers (`PropSeeds.v`), through C72 and C74 |
| C146 | `Sig.v` | s = r d + k e modulo q for a given k (`sign_equation`, `PropSig5.v`) |
| C147 | `TracePbkdf.v` | relation between two computations as C125, positions as C126 (`TracePbkdfFacts.v`, `TracePbkdfWork.v`); numbers of calls in `SpecTracePbkdf.v` |
| C148 | `TraceRandom.v` | as C147 (`TraceRandomFacts.v`); what an observer computes in `SpecTraceRandom.v` |
| C149 | `TraceModes.v` | independence: two runs related step by step (`TraceModesFlow.v`); what the block cipher is used for (`TraceModesUse.v`); numbers of operations in `SpecTraceModes.v`; what an observer computes in `SpecTrace3.v` (as C128) |
| C150 | `TraceMac.v` | independence: two runs related step by step (`TraceMacFlow.v`, `TraceMacInit.v`); tests of a line and the two bits in `SpecTraceMac.v`; numbers of operations and recovery of the key as C149 |
| C151, C152 | `Modes.v`, `Mac.v` | the code as a function of any block encryption (`SpecModes.v`) and the block that leads to a wanted code (`SpecFill.v`), both fed with answers of encrypt and decrypt (`MacKnown.v`) |
| C153 | `Modes.v` | every z-th block (`SpecStreams.v`); a mode as a run of a register of z blocks (`ModeStreams.v`) |
| C154 | `Modes.v` | stated with answers of decrypt alone; the register holds the last blocks of the ciphertext (`ModeSplice.v`) |
| C155 | `Hmac.v`, `Pbkdf.v` | keys computed from requests for tags (`SpecTags.v`); from C56 and C64 |
| C156 | `HeapSig.v` | simulation between buffers and values, on any heap (`HeapSigFacts.v`); stated with `unchanged` and `ends_new` in `PropHeapSig.v` |
| C157 | `Threads.v` | calls as sequences of statements, schedules as lists of thread numbers; calm calls and lockstep in `ThreadFacts.v`; `PropThreads.v` |
| C158 | `ThreadsRandom.v` | one thread waits between reading and assigning the register while the other runs (`ThreadRandomFacts.v`); `PropThreads2.v` |
| C159 | `ThreadsHash.v` | one thread waits between reading and assigning the buffer while the other runs (`ThreadHashFacts.v`); `PropThreads3.v` |
| C160 | `ThreadsMac.v` | computing and assigning are separated; a digest between the second and the third assignment (`ThreadMacFacts.v`); `PropThreads4.v` |
| C161 | `ThreadsPbkdf.v` | one thread waits before reading the number of blocks, or after assigning the number of the block (`ThreadPbkdfFacts.v`); `PropThreads5.v` |
| C162 | `ThreadsHmac.v` | one thread waits between counting its call and reading the counter; `PropThreads6.v` |
| C163 | `ThreadsModes.v` | one induction over the blocks for any step that reads and replaces the vector (`ThreadModeFacts.v`); `PropThreads7.v` |
| C164 | `ThreadsOwn.v` | every thread is a program on component `i` of a list of objects; after any schedule it has taken as many of its own turns as its number occurs (`ThreadOwnFacts.v`); `PropThreads8.v` |
| C165 | `ThreadsClear.v` | the loop over the blocks is run up to a place, the object is cleared, the loop is run to its end (`ThreadClearFacts.v`, `ThreadClearFacts2.v`); `PropThreads9.v`, `PropThreads10.v` |
| C166 | `ThreadsHashDigest.v` | the updating thread waits after any number of rounds of its loop while the other one takes its copy; for updates that fill no block every state in which the updating thread can pause has the digest before or after (`ThreadHashDigestFacts.v`); `PropThreads11.v` |
| C167 | `ThreadsHmacDigest.v` | the statements of the hash object inside the HMAC object; the updating thread pauses after any number of its statements while the other one asks (`ThreadHmacDigestFacts.v`, for updates that fill no block `ThreadHmacDigestFacts2.v`); `PropThreads12.v` |
| C168 | `ThreadsRandomClear.v`, `SpecPublicRegister.v` | the call pauses before or after reading the register for the increment while the other thread clears; what is assigned depends only on the last 63 octets of the wiped register (`ThreadRandomClearFacts.v`); `PropThreads13.v` |
| C123, C124 | `Modes.v` | gamma of an object as a list of bytes (`ModePrefix.v`); injectivity of the block cipher |

Refuted (false of the library): see the notes in `MANIFEST.json`.

## 3. Trusted base

* Coq's kernel, including its `vm_compute` conversion (`coqchk` rechecks without it).
* The reading of the Python source: the tie between model and code is the citation of
  file and lines at every definition; nothing is extracted or executed. Tables and
  curve constants are copied from the source text by a script.
* The specifications (`Spec*.v`) as readings of the standards.
* Assumptions. `Print Assumptions` answers `Closed under the global context` for every
  theorem except the three of C89 (`C89_builtin`, `C89_edwards`, `C89_defects`). Those compute
  with the machine integers of the standard library and depend on its axioms
  `Coq.Numbers.Cyclic.Int63.PrimInt63.*` (the type `int` and its operations) and
  `Coq.Numbers.Cyclic.Int63.Uint63.*_spec` (and `eqb_correct`, `eqb_refl`, `of_to_Z`,
  `*_def_spec`), which say what these operations compute. Their arithmetic on large
  integers is `BigZ` of the Bignums library, which adds no axiom.
* `coqchk` also lists `Coq.ssr.ssrunder.Under_rel.*`: parameters of a module in a standard
  library file that is loaded, used by no theorem.

## 4. What is not modelled

* The time at which finalisers run and what happens while the interpreter ends (the
  finalisers themselves, also of half-made objects, are modelled in `Final.v`); memory
  contents after `clear` other than what later calls or other names of a buffer can observe; time, except as the number and
  kind of steps (1.4).
* Programs that mix cipher objects with hash objects in one heap.
* Arguments of type `bool`, `float`, `memoryview`, `array`, and user subclasses of built-in
  types; non-ASCII strings.
* Python's recursion limit itself (C80 bounds the depth), memory exhaustion; threads except for the methods in `Threads*.v` (switches between statements only).
* The message texts of built-in exceptions; the parts of the packages' `__init__.py`
  (re-exports and version strings).
