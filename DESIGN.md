# A machine-checked model of pywasm 2.2.1

The development lives in `rocq/theories` (Coq 8.16.1). `properties.jsonl` holds the properties, `MANIFEST.json`
says which theorem settles which property, `seeded/LOG.jsonl` records the mutation tests.

## 1. What is modelled and how

Python functions become total Gallina functions that follow the source branch by branch. A Python exception is a
value (`Err e`); functions that mutate state return the state reached when the exception was raised, so "what is
left behind after a trap" is visible. Loops are structural recursion over the list or range they iterate over; the
interpreter loop `for _ in range(1 << 32)` takes its iteration count as a parameter and every theorem holds for all
counts. Python integers are `Z`, bytes are `Z` in 0..255, `bytearray`/`list` are lists, with Python's own indexing
and slicing rules (negative indices, clamping, growth by slice assignment) defined in `Py.v`.

| Source | Model file | Content |
|---|---|---|
| builtins used (`bytes`, slices, `struct`, `int.to_bytes`) | `Py.v`, `Utf8.v` | exceptions, Python list/bytes primitives, `bytes.decode` |
| `leb128.py` | `Leb128.v` | both codecs, readers |
| `arith.py` 6-144 (classes I, U) | `Arith.v` | all integer operations at any width |
| `arith.py` 147-222 (classes F32, F64) | `Floatops.v`, `Float.v` | float operations over a record of primitives; IEEE-754 through Flocq as one instance of the record |
| `core.py` 12-303 | `Val.v` | value types, 16-byte values and all constructors/readers |
| `opcode.py` | `Opcode.v` | one constructor per opcode constant, code table |
| `core.py` 306-1394 | `Syntax.v`, `Decode.v` | instruction and module descriptions, every `from_reader` |
| `core.py` 840-1017, 1212-1269, 1397-1552 | `Store.v` | limits, memories, tables, globals, segments, store, allocation |
| `core.py` 1795-4107, instructions that compute | `Numeric.v` | every numeric, conversion and vector instruction that pops, computes and pushes |
| `core.py` 1881-2001, 2645-4105, other instructions without control transfer | `Basic.v` | variables, memory, tables, references, vector loads and stores |
| `core.py` 1553-1893 | `Machine.v` | `allocate`, `instance`, `invocate`, the loop of `evaluate`, control instructions and calls |
| `core.py` 4110-4177 (`Runtime`) | `Machine.v`, at the end | embedder API: loading, instantiation, import matching, host objects, invocation |
| what `wasi.py` uses of `os`, `io`, `pathlib`-style strings | `Os.v` | path strings, in-memory streams, the operating system as an oracle |
| `wasi.py` | `Wasi.v` | class `Preview1`: constructor, all functions, `bind`, `main` |
| `wasi.py`, `core.py` | `WasiRun.v` | `bind` (503-555), and `evaluate`, `invocate`, `instance`, `Runtime.instance`, `Runtime.invocate` and `main` once more with the whole WASI state instead of the machine alone, so that a host function is a method of `Preview1`; the sequence of `__main__.py` 29-33 |
| `__main__.py` | `CommandLine.v` | `main_wasi`, `main_wasm` and how the process ends, on the options that argparse delivers; opening and reading the file is a parameter |

Python objects that are shared by reference are modelled as references where sharing is observable: a function's
module instance, and the byte array that a data segment instance shares with the module description. Everything
else that the code shares is never mutated in place, and is modelled by value.

Specifications used in theorem statements live in `Spec*.v` and do not use the model's helper functions: unsigned
N-bit integers, little-endian numbers, a structured (big-step) semantics of control, a binary-format encoder, an
index/range view of memories. Proofs are in `*Facts.v`. The theorems that answer a property are in `Prop*.v`, which
contain nothing but those theorems, their `Print Assumptions`, and one concrete example each.

## 2. Trusted base

* Coq's kernel (and `coqchk`), including `vm_compute` for the concrete examples.
* `Print Assumptions`: everything outside the float files is closed under the global context. Theorems about
  floating point use Flocq and therefore the axioms of the standard library's real numbers
  (`ClassicalDedekindReals.sig_forall_dec`, `ClassicalDedekindReals.sig_not_dec`,
  `FunctionalExtensionality.functional_extensionality_dep`, `Classical_Prop.classic`). The exact list for each
  theorem is in section 5.
* The reading of the Python source: nothing mechanical ties the model to the code; each definition cites the lines
  it mirrors and states its simplifications.
* Python's semantics of integers, lists, slices, `struct`, `int.to_bytes` as written down in `Py.v`.

Parameters instead of axioms: the host functions and the floating-point primitives are arguments of the machine
functions; theorems quantify over them, with explicit hypotheses where a host must not corrupt the machine.

## 3. What is not modelled

* Of the command line (`__main__.py`): that argparse delivers the options as typed, the text that `print` makes of the
  results, digits and spaces outside ASCII in `int()`; `float()` of a string is a parameter.
* `log.py`, every `__repr__`, and the disassembly printed by the loader (text only).
* Resource exhaustion of the host: Python's recursion limit in the loader, out of memory, the limit on printing large
  integers that disassembly can run into.
* The text of exceptions and assertion messages; exceptions are told apart by class.
* NaN payload propagation of the host's floating-point unit: results that are NaN are compared as NaN.
* The operating system itself. Every call that `wasi.py` makes to `os` is a request to an oracle that may answer anything;
  theorems quantify over the oracle, and where they need a file system that behaves they say so as a hypothesis.
* Other threads, and host functions that change Python objects of the interpreter behind its back (hypothesis
  `well_behaved` where it matters).

## 4. Plan per property
* **C01 Unsigned LEB128 round trip.** Leb128.v; induction on the encoder's fuel with a strict decrease of the integer; reader lemma for a continuation.
* **C02 Signed LEB128 round trip.** Same with floor division and the sign-bit condition.
* **C03 LEB128 encodings are canonical and shortest.** Length characterised by powers of 128; minimality from the value range of a k-byte string.
* **C04 LEB128 readers consume exactly one number.** Induction on the stream.
* **C05 The loader rejects integers outside the range the Wasm format allows.** Expected false: the reader has no bound. Refutation witness plus the part that holds (values that fit are read correctly).
* **C06 Wrapping integer arithmetic.** Arith.v; land/shift rewritten to mod; uniqueness of the representative.
* **C07 Signed division truncates.** Case analysis on signs, relation to Z.quot/Z.rem.
* **C08 Shifts and rotations.** Z.testbit extensionality.
* **C09 Bit counting.** Loop invariants over the bit loop, spec by Z.testbit.
* **C10 Saturating arithmetic.** Case analysis with lia.
* **C11 Integer/byte conversion.** Little-endian lemmas in PyFacts.v.
* **C12 Values survive the API boundary.** Val.v round trips per type; 16-byte invariant.
* **C13 Signed and unsigned views agree.** Little-endian lemmas.
* **C14 Integer instructions compute the Wasm result.** SpecInt.v gives each opcode its function on unsigned N-bit numbers; one theorem over all opcodes and states.
* **C15 Unsigned 64-bit division.** Expected false for quotients >= 2^63: refutation plus exact characterisation.
* **C16 Integer conversions.** As C14.
* **C17 Loads are bounds checked and exact.** Machine.v load path; SpecMem.v byte view.
* **C18 Stores write exactly the addressed bytes.** Store path; frame condition by nth.
* **C19 A load sees the last store.** From C17 and C18.
* **C20 memory.grow and memory.size.** Direct; zero pages by repeat.
* **C21 Memory size invariant.** Invariant preserved by every step, induction on the iteration count.
* **C22 A declared maximum of zero is a maximum.** Expected false: refutation with a declared maximum 0.
* **C23 Bulk memory instructions.** Slice-assignment lemmas; overlap because the right-hand side is evaluated first.
* **C24 Table instructions.** As C23 for tables.
* **C25 Dropped segments are empty.** Direct.
* **C26 Immutable globals never change.** Invariant over steps.
* **C27 Writes through a memory object stay inside the memory.** Expected false: refutation; in-range part proved.
* **C28 Structured control flow.** SpecControl.v big-step relation; forward simulation by induction on derivations.
* **C29 Branching to the function label returns.** Expected false: refutation by running the model on a two-function program.
* **C30 Bounded call depth.** Invariant on the frame list.
* **C31 call_indirect is type safe.** Direct case analysis.
* **C32 Parametric and variable instructions.** Direct.
* **C33 A successful invocation is clean.** From the final assertions of invocate.
* **C34 A trap does not poison the runtime.** Expected false: refutation by running the model.
* **C35 Host functions may call back.** Expected false: refutation with a host function that calls back.
* **C36 Store addresses are stable.** Invariant over steps.
* **C37 Instruction decoding inverts encoding.** SpecFormat.v encoder; induction on instruction trees.
* **C38 Module decoding inverts encoding.** Section by section on top of C37.
* **C39 No section is ignored.** Expected false: refutation with 33 sections.
* **C40 Decoding is local and makes progress.** Induction on the decoder's fuel.
* **C41 Over-aligned accesses are rejected.** Case analysis of the decoder.
* **C42 Imports are checked before anything changes.** Case analysis of instance.
* **C43 Index spaces and fresh allocation.** Fold lemmas over allocate.
* **C44 Exports resolve to the right entity.** Fold lemmas over allocate.
* **C45 Active data segments.** Run of the segment initialiser through the machine.
* **C46 Instantiating twice gives equal instances.** Expected false: refutation by instantiating twice.
* **C47 Only functions can be invoked, with the right number of arguments.** Arity part proved; kind part expected false, refuted.
* **C48 f32 arithmetic is correctly rounded.** Float.v with Flocq's double rounding theorems.
* **C49 Integer to f32 conversion is correctly rounded.** i32 exact; i64 expected false, refuted.
* **C50 Float minimum and maximum.** Proved except for zeros of opposite sign, refuted there.
* **C51 Rounding instructions.** Proved up to the sign of zero, refuted there.
* **C52 Float to integer truncation.** Flocq's truncation; case analysis on the bounds.
* **C53 Sign-bit instructions.** Bit-level.
* **C54 Integer lane arithmetic.** SpecSimd.v lane view of a 128-bit number; one theorem over all opcodes.
* **C55 Lane comparisons.** As C54.
* **C56 Lane movement.** As C54.
* **C57 Widening and narrowing lanes.** As C54.
* **C58 128-bit logic.** Bitwise by Z.testbit.
* **C59 Closed descriptors stay closed.** Wasi.v transition system; invariant over histories.
* **C60 Descriptors are never recycled.** Invariant over histories.
* **C61 Rights can only shrink.** Invariant over histories.
* **C62 path_open cannot amplify rights.** Expected false: refutation.
* **C63 Paths cannot leave the preopened directory.** Expected false: refutation (sibling directory with the same prefix).
* **C64 Arguments and environment are laid out exactly.** Proved for ASCII; refuted for non-ASCII.
* **C65 fd_write gathers all buffers in order.** Induction on the iovec list.
* **C66 fd_read scatters in order.** Induction on the iovec list; expected false for an empty buffer, refuted there.
* **C67 A failed seek changes nothing.** Expected false: refutation.
* **C68 Only preopened directories are reported as preopened.** Expected false for descriptors 0-2: refutation.
* **C69 Renumbering a descriptor to itself is harmless.** Expected false: refutation.
* **C70 Exit status is reported.** Case analysis of main over an abstract run.
* **C71 Guest pointers are unsigned.** Expected false: refutation.
* **C72 Values and tables stay in order.** The invariant of C21 (RunFacts.v), read off for values and tables; every module the loader accepts meets its hypothesis.
* **C73 Over-aligned vector accesses are rejected.** As C41; expected false for the zero-extending loads and the lane accesses.
* **C74 Declared lengths are the lengths present.** Expected false for data segments and bodies (short reads); holds for sections, by induction over them.
* **C75 Functions and bodies match.** More bodies than functions is an IndexError, by induction over the code section; fewer is accepted, refutation.
* **C76 Float comparisons.** Exact comparison of the scaled values against Flocq's comparison.
* **C77 f64 arithmetic is IEEE arithmetic.** Case analysis of the special cases the code catches.
* **C78 Float to float and integer to f64 conversion.** Flocq's correctness theorems for the roundings.
* **C79 copysign.** Bit-level; expected false for signalling NaNs in f32, refuted there.
* **C80 Float vector arithmetic.** Lane-wise lifting of the scalar lemmas (C48, C77): reading lanes, mapping, writing
  lanes, each lane against Flocq's operation.
* **C81 Float vector comparisons.** Exact result as a v128 whose lanes are all_ones of Flocq's comparison.
* **C82 Float vector minimum and maximum.** Expected false for zeros of opposite sign (as C50) and for pmin/pmax on
  signalling f32 NaNs: refuted there, proved on all other lanes.
* **C83 Float vector rounding.** Lifting of C51; the sign of a zero is lost, refuted for that.
* **C84 Float vector abs and neg.** Unlike the scalar instructions the lanes go through Python floats: expected false
  for signalling f32 NaNs, refuted there, proved for f64x2 and for every lane that is not a NaN.
* **C85 Vector conversions between floats and integers.** Lifting of C49, C52, C78 to lanes.
* **C86 Every WASI call enforces its right.** One table of (call, descriptor, right number) from the standard; case
  analysis over the calls with one lemma per kind of check.
* **C87 Rights that go together.** Expected false (path_create_file is never checked; fd_pread asks for fd_read only;
  fd_tell for fd_tell only): witnesses; truncation proved.
* **C88 fd_seek and fd_tell.** The position of a host descriptor is computed from the log of system calls; the two
  lseek calls of fd_seek are followed through it.
* **C89 fd_pread and fd_pwrite.** Induction over the buffer list, as for C65 and C66; as there, an empty buffer ends
  the reading: refuted for those.
* **C90 fd_fdstat_set_flags.** Expected false: any change of NONBLOCK is refused; refuted there, APPEND proved bit by
  bit.
* **C91 fd_filestat_set_times.** Expected false: MTIM_NOW stores the argument; refuted there, proved for all other
  flags.
* **C92 poll_oneoff with an absolute deadline.** Expected false: the waiting time has the wrong sign, so every such
  call raises ValueError; proved for every deadline ahead.
* **C93 fd_filestat_get describes the open file.** Expected false: the file is asked for by name; witness with an
  unlinked file. The layout is proved.
* **C94 No network for the guest.** Invariant over histories: no entry of the table ever has a socket type.
* **C95 Errors of the operating system become error numbers.** Expected false: each method catches only some errors
  (witness: unlinking a missing file raises); proved: a number returned after an error is the right one.
* **C96 fd_fdstat_get.** Composition of non-overlapping memory writes.
* **C97 Clocks and random bytes.** Direct computation with the memory lemmas.
* **C98 fd_readdir.** Induction over the names with lists of non-overlapping writes; sorting proved a sorted
  permutation. Expected false for non-ASCII names (length in characters): refuted there.
* **C99 Validated code never goes wrong.** SpecType.v states the standard's typing rules for every instruction and
  what a typed store is. Invariant: the three stacks form a chain of typed continuations. Progress and preservation
  for one step by cases on the typing rule (per-instruction lemmas for the value instructions), then induction on the
  number of turns.
* **C100 A validated call that ends returns its declared results.** The final state of the invariant of C99: if `evaluate`
  empties the label stack, `invocate` succeeds.
* **C101 Operands always have the expected types.** Read off the invariant of C99.
* **C102 Only the binary format is accepted.** The converse of C38. SpecLax.v is the format of SpecFormat.v with every
  relaxation marked; a small logic of what a reader consumes (`takes`) is carried through every reader, with induction
  on nesting and counts. Expected false where something is marked: limit flags, unknown, repeated and disordered
  sections, reserved bytes, reference and select types and negative block types are refuted one by one; C05, C22, C39,
  C40, C73, C74 and C75 cover the others.
* **C103 Instantiating a validated module.** SpecValid.v: the context of a module (imports first, then its own
  objects) and validity of a module (bodies, initial values, offsets, segment types, start function, limits, export
  indices), on top of the typing rules of SpecType.v. Phase by phase: import checks, constant expressions (by cases on
  the instruction), allocation (general form of the totality lemma of C42), then the initialisation code under the
  invariant of C99 extended with a label for initialisation code.
* **C104 Calls of exported functions of a validated module.** From C103, C99 and C12 (argument conversion); histories of
  a runtime are an inductive relation (SpecValid.v), preserved by an invariant (HistoryFacts.v). False as stated, with
  three witnesses: an exported host function cannot be called, a null reference among the results raises (into_all), and
  a trap leaves frames and labels behind (C34) that make later calls fail. Proved for the module's own functions as long
  as the earlier calls returned.
* **C105 Runs of validated functions are the structured runs.** Converse of C28 over stores as in C100. By strong
  induction on the number of turns: a well-typed piece of code either has a structured run (with outcome of the right
  types), or is still running after that many turns, or stands at a call_indirect whose table entry is a stray
  reference. Sub-runs take fewer turns; the forward simulation of C28 (strengthened: jumps and returns take at least
  one turn) carries the machine to the end of a sub-run. The structured semantics gains the failures of converting
  arguments and results of host functions, and its rule for traps says that a trap is independent of the operands
  below.
* **C106 Function references never dangle, and validated functions then run exactly as the structured semantics
  says.** SpecRef.v says what it means that all references of a store or machine refer to its functions, and what an
  honest history is. RefFacts.v proves with the Hoare rules of RunFacts.v that every instruction keeps this,
  RefHistoryFacts.v that allocation, instantiation of validated modules (whose initial values refer to functions that
  are allocated only afterwards) and calls do. Together with typing (C99) the stray case of C105 is impossible.
* **C107 Validated functions run as the WebAssembly standard prescribes, up to a list of named deviations.**
  SpecStandard.v states the standard's meaning of the straight-line instructions as an inductive relation `does` and
  the deviations as `amiss`, using the operator tables of SpecNum, SpecIeee, SpecSimd, SpecVecFloat and SpecMem and
  nothing of the interpreter. StandardFacts.v proves, instruction class by instruction class, that exec_basic
  satisfies `does` on typed operands unless `amiss`; the converse of C105 is generalised so that each straight-line
  step of the structured run carries this meaning. PropStandard.v has the one-step theorem and the whole-run theorem.
  Any NaN is accepted for a NaN (the standard's restriction to canonical and arithmetic NaNs is not stated).
* **C108 Instantiating a validated module does what the WebAssembly standard prescribes.** SpecInstantiate.v states
  the new objects (`adds`), the list of initialisation codes (`init_codes`) and what running them means
  (`initialises`, on top of C107's `run_by does`). The proof (InstantiateFacts.v) follows the phases of `instance`
  (InstFacts.v): the allocated store comes from `allocate_ok`, constant expressions from `head_runs` and C107's
  `model_means`, every initialisation code from the converse of the simulation (ConverseFacts.v) with the standard's
  meanings. That a data segment still has all its bytes when its turn comes follows from the standard meaning of the
  codes before it.
* **C109 From the bytes of a module to the results of its functions.** Composition of C38, C72, C103, C104, C106, C107
  and C12: PropWhole.v; the new lemmas are that the function instance made for a definition of the module stays in the
  store (C36) and is what the export leads to.
* **C110 Path calls do what their names say.** SpecWasiPath.v defines `asks` (which request each call stands for, from
  the names found in memory) and `stays`; PropWasiPath.v proves both directions from the checks of C63, C86 and the
  UTF-8 round trip (DecodeFacts.v, LaxFacts.v).
* **C111 path_filestat_get.** PropWasiPath.v, with the layout `filestat_at` of SpecWasiMore.v.
* **C112 path_readlink.** False: refuted with a target of one two-byte character and a buffer of one byte (a byte is
  written beyond the buffer, and the number reported is wrong even for a large buffer). Proved for ASCII targets
  (`_partial`). PropWasiPath.v.
* **C113 fd_allocate.** False: the number of bytes written is ignored; refuted for every operating system whose write
  is short. Proved if writes are complete (`_partial`). The file is described in SpecWasiPath.v by a size and a
  position that follow the log.
* **C114 path_filestat_set_times.** False in two ways: the stamps that are to stay are read from the target of the
  link (refuted with a link), and a missing file raises a Python exception (refuted for every operating system).
  Proved when links are followed or both stamps are set, and the file exists (`_partial`).
* **C115 poll_oneoff reports what happened.** False in two ways: without clock subscriptions it returns success with
  no event after eight seconds, and the clock identifier is read as 64 bits, so that the four padding bytes after it
  select the clock. Proved (`_partial`): for subscriptions with zero padding and relative clocks, the events written
  are exactly those of the clocks that are due and the descriptors the operating system reports ready, clocks first,
  and their number.
* **C116 WASI calls write only where they are told to.** False: a name that leaves memory is cut off and used, and a
  result written at the end of memory makes the memory longer than its pages; both refuted with a witness. Proved
  (`_partial`): every call with fixed result ranges, when these lie in memory, keeps the length of the memory and
  changes no byte outside them, whatever the operating system replies and however the call ends; calls without results
  leave the memory alone.
* **C117 What a program run under WASI can ask of the operating system.** WasiRun.v models the interpreter with WASI
  bound: the state is the whole world, and a turn that calls a host function runs the WASI method on it. Proved first:
  a turn is a turn of Machine.v with the host function's outcome plugged in. Then induction on the number of turns:
  every run is a `history`.
* **C118 Validated WASI programs run safely.** False: a WASI call with a pointer near or beyond the end makes a memory
  longer than its pages, after which loads that must trap succeed (witness: a validated module with a memory of zero
  pages). Proved: bind gives the functions the types of the standard; a module whose instantiation calls no WASI
  function is instantiated as without them, so C103 applies. Proved (`_partial`): the rest of the claim, for every call
  in a state at rest, up to the first WASI call that makes a memory longer; uses the single-step lemma of C99 with a host
  that differs from turn to turn, and a pass over all WASI functions that shows that they write bytes and return one
  number.
* **C119 What main returns and leaves behind.** False for the descriptors: a character device opened by path_open is
  never closed, neither is a file renumbered to a standard stream, nor a file whose stat fails after it was opened; and
  with return_on_exit switched off proc_exit leaves the stacks as they are. Witnesses. Proved (`_partial`): the outcome
  (main returns c exactly if `_start` returns and c is 0 or the program calls proc_exit with c, and raises what `_start`
  raises otherwise), the empty stacks, and that nothing stays open that was not open at the beginning if no file is a
  character device, stat succeeds, and nothing is renumbered to a standard stream.
* **C120 A Preview1 object after main.** False: main marks only the host side closed, so the second run works on
  closed host descriptors; witness: the same program run twice. Proved (`_partial`): main changes nothing else in the
  table, and any number of calls that are given no descriptors but the standard streams and that leave the table as it
  is work on live host descriptors after main too.
* **C121 A call works only on the descriptors given to it.** A pass over all WASI functions but poll_oneoff (whose
  descriptors are in memory), with the invariant that the entries named by the call carry allowed host descriptors.
  Requests by path alone (the stat of a directory entry in fd_readdir) work on no descriptor and are not covered.
* **C122 Arguments and environment from the command line.** CommandLine.v models main_wasi on the options argparse
  delivers. SpecCommand.v defines a setting and the last setting of a key on the list of strings; CommandFacts.v
  proves that the dict built by splitting has those keys and values, that the constructor passes them on and that no
  call changes them (induction over the history, case analysis over the 46 calls).
* **C123 Directories from the command line.** As C122; induction over the preopen loop of the constructor on the
  sorted dict.
* **C124 Calling a function from the command line.** CommandLine.v models main_wasm with int(), bytearray.fromhex and
  a parameter for float(). Numerals and hexadecimal text are specified by place value; induction over the digits in
  both directions. The results follow from C109 with a runtime without host functions. The prefix of a vector is not
  looked at: refuted with a witness, the rest proved.
* **C125 The exit status of the command.** A program whose start function calls proc_exit ends with a traceback,
  status 1: refuted by a witness module given by its bytes. For programs that have been instantiated, the statuses
  follow from C119's account of main.
* **C126 Only the code of functions is executed, and code that avoids the instructions known to deviate runs exactly
  as the standard prescribes.** SpecCode.v defines being written within code at any depth, the list of suspect
  instructions and runtimes made from given modules; CodeFacts.v proves by induction over the number of turns that
  every label on the stack holds code of a function of the store, and by induction over the runtime's history that
  every function comes from a loaded module. With the standard-run theorem (C109) and the command line (C124) this
  removes the deviation case for modules without suspect instructions. PropCode.v.
* **C127 No wrong answers: a call that is cut off raises, and whatever is returned or printed is the standard's
  result.** PropAnswer.v. After a cut-off run a label is left on the stack, and the checks of invocate (core.py
  1717-1720) and of instance see it; with C126 the case of an unfinished run drops out of C109 and C124 whenever a
  result is returned.
* **C128 The standard leaves one result, and pywasm returns it.** Make the specification of values exact: `stands` and
  `is_single`/`is_double` fix all sixteen bytes (SpecStandard.v), which the step theorems already prove. SpecUnique.v
  says which instructions make a choice (`arithmetic`, `free`) and what a run without choices is; UniqueFacts.v shows
  `computes` and `does` functional on them through one classification of the operators (no case analysis on pairs of
  rules), then two runs equal by induction on the first. PropUnique.v combines this with C109 and C126.
* **C129 Programs that end by the standard end in pywasm.** FollowFacts.v: by induction on the standard's run, for
  typed code and a sound machine state, either the machine comes to an odd state or the interpreter's own structured
  run (C105) is the same one step for step; where the interpreter's step is the standard's and makes no choice,
  `does_once` (C128) says it is the step the given run made. The simulation of C28 then bounds the number of turns.
  PropTerminate.v states it for calls by name and combines it with C126 and C128.
* **C130 A module's private state is out of reach of code that was not given it.** SpecIsolate.v: parts of a store
  (`region`), `closed`, `same_outside`, histories given only a part (`uses_only`). Refuted for decoded modules by two
  files (PropIsolate.v); proved for validated ones: every instruction keeps a closed part closed and the rest
  unchanged (IsolateFacts.v), hence every turn, call, instantiation and history (IsolateRunFacts.v,
  IsolateInitFacts.v).
* **C131 Modules that fail validation are refused.** Refuted by six files, one per rule of `valid_module`
  (SpecValid.v) that they break, in PropInvalid.v. What is checked follows from the lemmas on allocation (InstFacts.v)
  and the assertions that each allocation of an object passes (InvalidFacts.v).
* **C132 What a function returns depends only on what it can reach.** `agrees` (SpecAgree.v) says that two stores have
  the same objects at the addresses of a region. Two runs are followed side by side: for every instruction, looking up
  objects of the region gives the same in both stores and putting one back keeps them in agreement (AgreeFacts.v); the
  stacks stay equal turn by turn, indirect calls by the typing of running machines (AgreeRunFacts.v). Part (b) from
  part (a) and C130.
* **C133 WASI functions touch only the memory of their caller.** `own_memory` (SpecWasiInside.v) is the address of
  memory 0 of the instance of the top frame. Two worlds that have the same WASI object, requests, in-memory streams
  and frames, and the same memory at that address, are followed side by side through all 46 functions
  (WasiInsideFacts.v). With this the WASI functions meet the conditions that C130 and C132 put on host functions;
  these conditions may assume that the instance of the calling frame belongs to the part. A turn of a WASI program is
  a turn of the machine with the WASI functions of the present world as host functions (C118).
* **C134 Code without a way back always ends.** SpecEnds.v says for a store which code ends within how many turns, as
  an inductive predicate over the code and, at calls, the code of the functions called. EndsFacts.v proves an
  invariant of the main loop: the labels are those of nested calls, the labels of a call are its blocks above the
  label of the function, and the turns left under all labels together go down in each turn. No typing is used, so that
  the theorem covers modules that would fail validation. C134_ends: evaluate has emptied the stack of labels or
  raised, within the number of turns. C134_limit: the outcome of the call does not depend on the limit. C134_ranked:
  stores whose functions never branch back and call only functions of lower rank have such a number for each function.
  C134_recursion: with calls in circles too, as at most 1022 calls nest in a call from outside.
* **C135 The stacks of a call stay bounded.** SpecStacks.v says when the branches of code stay inside the function.
  StacksFacts.v proves an invariant of the main loop: the labels of a call are at most one more than its code nests
  blocks, and the operands above the height at which a label was made are bounded by what the instructions up to the
  current one can push, a branch cutting them back to that height; at most 1024 frames exist. No typing is used.
  C135_bounded: one number bounds the three stacks in all states of all runs.
* **C136 A call runs only the code of its call graph and changes only what that code writes.** SpecReach.v says when a
  set of functions is closed under calls, which instructions write which part of the store (listed one by one, not by
  the model's tables) and when a set only reads a part. Proof (ReachBasicFacts.v, ReachFacts.v): the instructions
  without control transfer keep a part they do not write, by following every branch of exec_basic; an invariant lodges
  each label in a function of the set, with its frame of the function's instance below it, and is kept by every turn;
  it speaks about the store after exceptions too. Theorems C136_graph, C136_pure, C136_invocation and C136_traceless
  (PropReach.v). Example: a program that writes a byte and a global through an indirect and a recursive call, next to
  a function that writes to a table and is not called.
* **C137 A WASI program asks the system only for what the WASI functions in its call graph ask for.** `SpecWasiAsk.v`
  has the table `may_ask` and `asked_only`/`asked_by`; `WasiAskFacts.v` walks through all WASI functions of `Wasi.v`
  once, `WasiGraphFacts.v` carries the invariant of C136 through the turns of `WasiRun.v`, and `PropWasiAsk.v` has
  C137_function, C137_program (a call of an exported function), C137_invocation and C137_never. Requests while the
  program is set up (preopened directories) and at its end (closing) are not part of the call and are covered by C117.
* **C138 WASI functions, and the programs that call them, leave alone what they are not about.** `SpecWasiLeave.v` has
  the three tables of functions; `WasiLeaveFacts.v` walks through all WASI functions of `Wasi.v`,
  `WasiLeaveRunFacts.v` lifts any such relation between worlds to runs with the call graph invariant of C136/C137, and
  `PropWasiLeave.v` has C138_function, C138_descriptors, C138_streams and C138_store.
* **C139 Programs with WASI functions end, and keep their stacks bounded, whatever the operating system replies.**
  `WasiEndsFacts.v` shows that a turn of `WasiRun.v` is a turn of `Machine.v` with the WASI functions seen from the
  present world as host functions, which leave the stacks alone, and carries the invariants of C134 and C135 through
  such turns; `PropWasiEnds.v` has C139_ends, C139_ranked, C139_recursion and C139_bounded.
* **C140 A WASI function that reports success has had its work done.** `SpecWasiEarn.v` has the table of the request
  that does each function's work; `WasiEarnFacts.v` walks through every function, with the growth of the log from
  C137; `PropWasiEarn.v` has C140_earned_partial for all but two functions, C140_clock for the clocks there are, and
  C140_refuted: fd_datasync asks for nothing at all (C140_datasync, in every world), and clock_time_get answers
  success and time 0 for clocks there are not, where WASI has EINVAL.
* **C141 A WASI function that fails has changed nothing of the program.** `SpecWasiErr.v` says what is to stay;
  `WasiErrFacts.v` walks through every function: until the last way to return an error number nothing is written, and
  after the first write only success is returned; `WasiRaiseFacts.v` does the same for exceptions, where fd_close and
  fd_renumber need that what follows their first write cannot fail; `PropWasiErr.v` has C141_errno_partial for returned
  error numbers of all functions, C141_raised_partial for exceptions of the functions that hand nothing back through
  memory, and C141_refuted: fd_fdstat_set_flags changes the noted flags before it asks the operating system, and keeps
  them when that refuses. Missing: exceptions of the functions that write memory, which may raise after a part of it.

## 5. Axioms per theorem

Collected from `Print Assumptions` after each theorem of `Prop*.v`.

These depend on `ClassicalDedekindReals.sig_forall_dec`, `ClassicalDedekindReals.sig_not_dec`, `Classical_Prop.classic`, `FunctionalExtensionality.functional_extensionality_dep` (standard library only):

* C127_no_wrong_answer
* C127_printed
* C126_no_deviation
* C126_bytes_to_results
* C126_command
* C124_results
* C48_f32_arithmetic
* C48_f32_sqrt
* C49_convert_i32
* C49_convert_i64_partial
* C49_convert_i64_refuted
* C50_min_max_partial
* C50_min_max_refuted
* C51_rounding_partial
* C51_rounding_refuted
* C52_truncation
* C53_sign_bit
* C76_float_comparisons
* C77_f64_arithmetic
* C77_f64_sqrt
* C78_demote
* C78_promote
* C78_convert_to_f64
* C79_f64_copysign
* C79_f32_copysign_partial
* C79_f32_copysign_refuted
* C12_floats_survive
* C108_instantiates
* C108_honest_instantiates
* C131_refuted
* C130_refuted
* C107_instructions
* C107_runs
* C107_honest_runs
* C129_terminates
* C129_certain
* C99_ieee
* C128_only_run
* C128_results
* C128_certain
* C104_host_function_refuted
* C104_null_result_refuted
* C104_after_trap_refuted
* C80_f32x4_arithmetic
* C80_f64x2_arithmetic
* C80_f32x4_sqrt
* C80_f64x2_sqrt
* C81_vector_comparisons
* C82_min_max_partial
* C82_min_max_refuted
* C82_pick_partial
* C82_pick_refuted
* C83_rounding_partial
* C83_rounding_refuted
* C84_sign_bit_partial
* C84_sign_bit_refuted
* C85_trunc_sat_f32x4
* C85_trunc_sat_f64x2
* C85_convert_f32x4
* C85_convert_f64x2
* C85_demote
* C85_promote
* C109_bytes_to_results

All other theorems, 322 in number, are closed under the global context:

C132_calls, C132_moments, C132_interleaved, C127_cut_off, C127_expression, C06_signed_wrap, C06_unsigned_wrap,
C07_div_rem, C07_div_raises, C08_shl, C08_shr_s, C08_shr_u, C08_rotate, C09_bit_counting, C10_saturation,
C11_into_bytes_signed, C11_into_bytes_unsigned, C11_from_bytes, C126_provenance, C126_origin, C122_environment,
C122_throughout, C122_malformed, C123_directories, C124_call, C124_refused, C124_prefix_refuted, C125_status_partial,
C125_refuted, C28_code_is_structured, C28_invocation, C28_trap, C29_function_label_refuted,
C29_function_label_partial, C30_depth, C30_invocation, C30_call_at_limit, C31_traps, C31_enters, C31_only_matching,
C33_clean, C34_trap_poisons_refuted, C34_refused_partial, C35_reentrancy_refuted, C105_structured, C105_exactly,
C37_instruction, C37_expression, C38_module, C39_no_section_ignored_refuted, C39_module_refuted,
C39_up_to_32_sections_partial, C40_expression, C40_instruction_refuted, C40_instruction_partial,
C40_loader_terminates, C41_alignment, C73_vector_alignment_refuted, C73_vector_alignment_partial,
C05_numbers_in_range_refuted, C05_numbers_partial, C22_maximum_zero_refuted, C22_table_grows_refuted,
C22_maximum_partial, C72_loaded_in_order, C74_lengths_refuted, C74_section_lengths_partial,
C75_code_for_every_function_refuted, C75_code_section_partial, C134_ends, C134_limit, C134_ranked, C134_recursion,
C42_rejected, C42_accepted, C43_index_spaces, C43_allocation_adds, C43_instantiation_adds, C44_exports,
C45_active_data, C45_fits_or_raises, C46_fresh_copy_partial, C46_twice_refuted, C25_drop_refuted,
C47_invocate_checked_partial, C47_kind_refuted, C131_checked_partial, C130_calls_partial, C130_moments_partial,
C130_histories_partial, C130_confined_partial, C130_private_partial, C102_accepts_only_partial, C102_limits_refuted,
C102_sections_refuted, C102_order_refuted, C102_immediates_refuted, C102_block_type_refuted, C01_unsigned_roundtrip,
C01_unsigned_rejects_negative, C02_signed_roundtrip, C03_unsigned_canonical, C03_signed_canonical,
C04_unsigned_reader, C04_signed_reader, C17_load, C17_load_lane, C18_store, C18_store_lane, C19_store_then_load,
C20_memory_size, C20_memory_grow, C23_memory_fill, C23_memory_copy, C23_memory_init, C24_table_get, C24_table_set,
C24_table_size, C24_table_grow, C24_table_fill, C24_table_copy, C24_table_init, C25_elem_drop, C25_table_init_dropped,
C25_data_drop_partial, C25_memory_init_dropped, C27_put_in_range_partial, C27_put_u_in_range_partial,
C27_put_i_in_range_partial, C27_put_u8_in_range_partial, C27_put_out_of_range_refuted, C32_drop, C32_select,
C32_select_type, C32_local_get, C32_local_set, C32_local_tee, C32_global_get, C32_global_set, C14_binary_instructions,
C14_unary_instructions, C14_comparisons, C14_tests, C15_i64_div_u_refuted, C15_i64_div_u_partial,
C16_integer_conversions, C136_graph, C136_pure, C136_invocation, C136_traceless, C106_references, C106_histories,
C106_exactly, C21_memory_size, C21_memory_size_any, C26_immutable_globals, C26_index_is_stable, C36_store_is_stable,
C25_stays_dropped, C25_data_stays_dropped, C72_values_in_order, C72_table_size, C54_lanes_of_a_vector, C54_lane_unary,
C54_lane_binary, C54_lane_shifts, C55_lane_comparisons, C56_splat, C56_extract_lane, C56_replace_lane, C56_shuffle,
C56_swizzle, C57_extend, C57_extmul, C57_extadd_pairwise, C57_dot_product, C57_narrow, C58_logic, C58_not,
C58_bitselect, C58_any_true, C58_all_true, C58_bitmask, C135_bounded, C99_only_traps, C99_every_turn, C100_returns,
C101_operands, C12_accepted_values, C12_rejects_exactly_out_of_range, C13_views_agree,
C13_built_from_one_view_read_by_the_other, C103_instantiation, C103_histories, C104_calls_partial, C59_closed,
C59_only_live, C59_renumber, C60_fresh, C61_set_rights, C61_no_gain, C62_refuted, C62_asked_partial,
C63_sibling_refuted, C63_root_refuted, C63_dot_refuted, C63_open_partial, C63_accepts_partial, C64_strings_partial,
C64_sizes_partial, C64_refuted, C65_os, C65_stream, C66_os_partial, C66_stream_partial, C66_refuted, C67_refuted,
C67_error_partial, C67_cur_partial, C68_refuted, C68_dirs_partial, C69_refuted, C69_other_partial, C70_status,
C70_call, C70_argument, C70_proc_exit, C70_returns, C70_raises, C70_normal, C70_refuted, C71_refuted,
C71_memories_partial, C137_function, C137_program, C137_invocation, C137_never, C140_earned_partial, C140_datasync,
C140_clock, C140_refuted, C139_ends, C139_ranked, C139_recursion, C139_bounded, C141_errno_partial,
C141_raised_partial, C141_refuted, C133_own_memory, C133_same_call, C133_confined, C133_same_run, C138_function,
C138_descriptors, C138_streams, C138_store, C119_devices_refuted, C119_renumber_refuted, C119_lost_refuted,
C119_stacks_refuted, C119_outcome_partial, C119_stacks_partial, C119_closed_partial, C120_refuted, C120_table_partial,
C120_streams_partial, C121_only_named, C86_rights, C87_create_refuted, C87_pread_refuted, C87_tell_refuted,
C87_trunc_partial, C88_seek, C88_tell, C89_pread_partial, C89_pwrite, C89_refuted, C90_refuted, C90_append_partial,
C91_refuted, C91_times_partial, C92_refuted, C93_refuted, C93_layout_partial, C94_no_sockets, C95_refuted,
C95_number_partial, C96_fdstat, C97_clock, C97_random, C98_ascii_partial, C98_refuted, C110_one_request, C110_success,
C111_path_filestat_get, C111_missing, C112_overflow_refuted, C112_count_refuted, C112_ascii_partial,
C113_short_refuted, C113_allocate_partial, C114_link_refuted, C114_missing_refuted, C114_times_partial,
C115_silence_refuted, C115_padding_refuted, C115_events_partial, C116_cut_refuted, C116_longer_refuted,
C116_frame_partial, C117_call, C117_other_turn, C117_turn, C117_history, C117_program, C117_no_sockets,
C117_only_live, C118_refuted, C118_bind, C118_instantiation, C118_rest, C118_only_traps_partial.
