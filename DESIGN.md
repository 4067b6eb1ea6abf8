# Formal model of libhmac in Rocq/Coq 8.16.1

Source under study: /repo (libyal/libhmac, pinned commit), read as text only.
Nothing in /repo is compiled or executed.

## 1. Approach

Everything is a deep-enough shallow embedding: each C function becomes a Coq
function over an explicit machine state.

* **Machine state**: a list of heap cells (each live or freed, holding raw bytes
  or a hash context structure), a counter of allocation attempts, a list of
  error entries, and a ghost log of what local arrays held when their function
  returned.  Freed cells keep their last contents, so "was it zeroed before it
  was freed" is expressible.
* **Undefined behaviour** (out-of-bounds access, use after free, double free,
  wrong type, overlapping memcpy, running out of loop fuel) is a distinct
  outcome `Undef`, never a default value.
* **Environment** (quantified everywhere): which allocation attempts succeed,
  what uninitialised memory contains, whether the build is unrolled or looped,
  and the platform (`SSIZE_MAX`).
* **Pointers** are NULL or (cell, offset).  Key, message and output buffers live
  in the same heap, so overlaps between them are covered.
* **Sizes** are `N`; every place where C arithmetic wraps is written with an
  explicit modulus.
* **Specifications** (`Spec*.v`) are written from RFC 1321, FIPS 180-4 and
  RFC 2104 without reference to the model; the SHA-2 constants there are computed
  from integer roots of primes, not copied.

## 2. Files

| file | content |
|---|---|
| `Words.v` | C integer operations on `N` (modelled ops only) |
| `Spec.v` | MD5, SHA-1, SHA-224/256, SHA-512, HMAC as in the standards |
| `Machine.v` | heap, outcome monad, environment |
| `Tables.v` | tables and unrolled macro sequences transcribed from the sources |
| `Transform.v` | block transforms, unrolled and looped |
| `Context.v` | context initialize/free/update/finalize |
| `Hash.v` | `libhmac_X.c`: wrappers, calculate, calculate_hmac |
| `Vocab.v` | words used in the statements about the library (well-formed states, bytes at a pointer, leaks, errors) |
| `History.v` | programs that call the library: the operations and their runs |
| `ByteStream.v` | the byte order and rotation macros |
| `ToolStrings.v`, `ToolVocab.v` | `digest_hash.c`, `byte_size_string.c`, and words for statements about texts |
| `SumHandle.v`, `SumVocab.v` | `sum_handle.c` and `main` of `hmacsum.c` after the options, and words for them |
| `Getopt.v`, `GetoptVocab.v` | `hmactools_getopt.c` and the whole `main`, and what arguments mean |
| `Evp.v`, `EvpVocab.v` | the builds on OpenSSL's md5.h/sha.h and EVP functions, and the contract of the provider |
| `Py.v`, `PyVocab.v` | the Python bindings `pyhmac_X.c` and `pyhmac_X_context.c`, Python programs over them and what should come of them |
| `PyError.v`, `PyErrorVocab.v` | `pyhmac_error.c`: the texts of exceptions and the references taken |
| `PyModule.v`, `PyModuleVocab.v` | `pyhmac.c`: the tables of functions, argument parsing, initialisation; the method table of `pyhmac_X_context.c` |
| `Signal.v`, `SignalVocab.v` | `hmactools_signal.c`, the signal handler of `hmacsum.c` and the statements of `main` as a machine that a signal may interrupt anywhere |
| `Fuzz.v` | the targets in `ossfuzz` |
| `Threads.v`, `ThreadVocab.v` | update and finalize access by access, pools of threads under a schedule, and words for them |
| `Trace.v`, `TraceVocab.v` | the library functions once more with a record of conditions, places, memory requests and blocks, and words for it |
| `CollVocab.v` | words for statements about equal digests |
| `WordFacts.v`, `BlockFacts.v`, `ShaFacts.v`, `Sha2Facts.v`, `TransformFacts.v` | the block transforms are those of the standards |
| `MachineFacts.v`, `ContextFacts.v`, `DigestFacts.v`, `ReprFacts.v`, `HashFacts.v`, `HmacFacts.v` | contracts of the functions |
| `HistoryFacts.v`, `LibProofs.v`, `LibTheorems.v`, `BuildFacts.v`, `ByteStreamFacts.v`, `TableFacts.v` | lemmas that close the property theorems |
| `ToolStringsFacts.v`, `ToolConvertFacts.v`, `ToolProofs.v`, `SumFacts.v`, `SumProcess.v`, `SumMain.v`, `SumSelect.v`, `SumProgram.v`, `SumTheorems.v`, `GetoptFacts.v` | the same for the tools |
| `EvpFacts.v`, `EvpTheorems.v` | the same for the builds on a provider |
| `PyFacts.v`, `PyProgram.v`, `PyTheorems.v` | the same for the Python bindings |
| `ThreadFacts.v`, `ThreadTheorems.v` | the same for threads |
| `TraceErase.v`, `TraceFacts.v`, `TraceLow.v`, `TraceBlocks.v`, `TraceTheorems.v` | the same for records |
| `CollFacts.v` | the same for equal digests and HMACs |
| `PyErrorFacts.v`, `PyModuleFacts.v`, `SignalFacts.v`, `FuzzFacts.v` | the same for these four |
| `ErrorVocab.v`, `ErrorFacts.v`, `ToolErrorFacts.v` | reasons for refusing a call, in order, with the error entries; the proofs for C56 and C57 |
| `SumErrorVocab.v`, `SumErrors.v` | the same for the functions of `sum_handle.c`; the proofs for C58 |
| `SumEntry.v`, `SumEntryFacts.v` | the three functions of `sum_handle.c` that prepare, feed and end the digests, with their check for a missing handle; their errors |
| `EvpErrorVocab.v`, `EvpErrors.v`, `EvpMemory.v` | what a call on a message digest provider may meet, in order, and what freed memory may hold; the proofs for C59 |
| `CText.v` | the statements and expressions that the library's C files are made of, and their meaning |
| `TextMd5.v`, `TextSha1.v`, `TextSha224.v`, `TextSha256.v`, `TextSha512.v`, `TextAll.v` | the text of `libhmac_X_context.c` and `libhmac_X.c` as terms of `CText.v`, written by `tools/ctext.py` |
| `TextTools.v` | the text of `digest_hash.c`, `byte_size_string.c` and `hmactools_getopt.c` of `hmactools`, written by the same tool |
| `ToolCalls.v` | what these call elsewhere: snprintf and its formats, strlen, strchr or memchr, libclocale |
| `TextSum.v` | the text of `sum_handle.c` of `hmactools`, written by the same tool |
| `SumCalls.v` | what it calls elsewhere, and a handle of `SumHandle.v` as the parameters that stand for the members of the structure |
| `TextMain.v` | the text of `main` of `hmacsum.c` from behind the options, written by the same tool |
| `MainCalls.v` | what it calls elsewhere, and its variables when the options were read |
| `TextStart.v` | the text of `main` up to there, written by the same tool |
| `StartCalls.v` | what it calls elsewhere, and how the whole program is run |
| `TextEvp.v` | the text of `libhmac_X_context.c` in the builds with libcrypto, written by the same tool |
| `EvpCalls.v` | what it calls elsewhere: the functions of `md5.h`, `sha.h` and `evp.h`, memory and the members of the structure |
| `EvpHash.v` | `libhmac_X.c` in the builds with libcrypto: its text, with calls that execute `TextEvp.v`; the functions that pass on their arguments |
| `TextFacts.v`, `TextContext.v`, `TextUpdate.v`, `TextLoops.v`, `TextMd5Facts.v`, `TextSha1Facts.v`, `TextSha224Facts.v`, `TextSha256Facts.v`, `TextSha512Facts.v`, `TextWhile.v`, `TextTransform.v`, `TextBytes.v`, `TextFinalize.v`, `TextSteps.v`, `TextHash.v`, `TextHmac.v`, `TextRun.v`, `TextDigest.v`, `TextSizes.v`, `TextCreate.v`, `TextGetopt.v`, `TextToolRun.v`, `TextSumSteps.v`, `TextSumSmall.v`, `TextSumHash.v`, `TextSumInit.v`, `TextSumTypes.v`, `TextSumEnd.v`, `TextSumProcess.v`, `TextSumRun.v`, `TextMainRun.v`, `OptionFacts.v`, `TextStartRun.v`, `TextEvpSteps.v`, `TextEvpFree.v`, `TextEvpInit.v`, `TextEvpUpdate.v`, `TextEvpFinalize.v`, `TextEvpClient.v`, `TextEvpHash.v`, `TextEvpAll.v`, `TextEvpHashClient.v`, `TextEvpErrors.v` | the proofs for C60 |
| `TextTests.v` | tests of the meaning of C in `CText.v` at the borders of the types |
| `Demo.v`, `ModelEval.v`, `Witness.v` | concrete states and runs for the examples and the refutations |
| `SpecTests.v` | the standards' test vectors, as a test of `Spec.v` |
| `Prop*.v` | the property theorems, each closed by one lemma, with `Print Assumptions` and an example |

The five algorithms' `*_context.c` files are the same text up to names and the
parameters collected in the record `alg` (checked with `diff` after renaming);
the model has one definition over that record and five instances.

## 3. Property by property

| id | modelled | proof idea |
|---|---|---|
| C01-C05 | calculate down to single word operations, both build variants | representation invariant of a context (absorbed message), refinement of the unrolled/looped transform to the standard's step function by simulation, padding lemma. SHA-512 is only right below 2^61 bytes because the code writes a 64-bit length: full statement kept, proved part `_partial`, padding refuted beyond |
| C06 | calculate_hmac with heap, key buffers, two contexts | compose the context contracts |
| C07 | sequences of update | induction over the list of calls |
| C08 | both variants of every transform and of finalize | pointwise equality of the functions |
| C09 | histories as a transition system over machine states | invariant: each context satisfies the representation invariant |
| C10, C11 | all argument checks | case analysis plus totality from the invariant |
| C12 | error entries in the state | per-function path analysis |
| C13, C14 | buffers in one heap | final heap given explicitly |
| C15, C16 | allocation oracle | all failure patterns by case analysis |
| C17 | same | false: refuted with a witness (inner hash left in output), weaker claim proved |
| C18, C19 | freed cells keep contents | C19 false on failing paths: refuted, success path proved |
| C20 | ghost log of local arrays | false for SHA-1 (64 of 80 words stay): refuted; others proved |
| C21 | same | false: refuted |
| C22 | finalize | invariant |
| C23 | finalize then update/finalize | false: refuted by evaluating a witness |
| C24 | histories over many contexts | per-context projection, induction |
| C25, C26 | initialize/free/wrappers | direct |
| C27 | hash_count arithmetic modulo 2^64 | arithmetic in the invariant |
| C28 | corollary of C06 through the specification | rewriting in the spec |
| C29 | tables | integer root characterisation by computation plus proof of the root function; sines over the reals with interval bounds |
| C30 | byte order macros | bit-level lemmas |
| C31 | digest_hash_copy_to_string | induction, decoding function as inverse |
| C32-C34 | byte_size_string_create/convert | arithmetic; C33/C34 false (kilo suffix rejected, silent wrap): refuted plus true part |
| C35-C39 | sum_handle processing loop over an input/abort schedule | loop invariant; C39 false: refuted |
| C40, C41 | set_digest_types, set_process_buffer_size | decision table; parts false: refuted |
| C42 | sum_handle_initialize/free over the allocation oracle | case analysis; leak refuted |
| C43 | hmactools_getopt | out-of-bounds on "-" refuted; rest by invariant |
| C44 | the functions of the library with a record of what they do | taking the record away gives the model, function by function; two runs on memories of the same layout are related step by step; the blocks of a record are counted |
| C45 | the three forms of the context functions on a provider, which is a record of arbitrary functions with a contract | contracts of the context functions; calculate and calculate_hmac as sessions of them; comparison with C01-C06. The accepted sizes differ: refuted |
| C46 | any number of threads, library calls interleaved access by access under any schedule | on one shared context refuted by schedules (a lost byte; an access beyond the context). On separate contexts: what an access reads and writes is local, so that by induction on the schedule every thread is where it would be alone |
| C47 | every function of the binding that a Python program can reach; programs over many objects | invariant that relates the objects of a program to abstract lives (nothing, no context, a message); three ways in which it is false are refuted, the rest is proved |
| C48 | rotation macros at four widths | bit-level lemmas |
| C49 | same as C47 | contracts of the binding functions over those of the library |
| C50 | same as C01-C05 | the two chains of compression are compared from the end; the last block carries the length; padding can be taken off again. That collisions exist somewhere is no news (there are more inputs than results): the statement says where in these two computations one is |
| C51 | same as C06 | C50 for the outer and then for the inner hash; comparison of key blocks |
| C52 | `PyError.v` | vsnprintf, the search for line ends and for a final stop over arrays with arbitrary former contents; induction over the array. Partial: references are kept (`C52_references_refuted`), NULL is passed on (`C52_repr_refuted`) |
| C53 | `PyModule.v` over `Py.v` | look-up in the tables, every way of passing two arguments, then C49. Partial: `C53_init_refuted` |
| C54 | `Signal.v` | invariant of the machine over all interleavings. Partial: `C54_refuted`; `C54_window` says that there is no other way |
| C55 | `Fuzz.v` over the library model | from the description of a one-shot call by cases; induction over the inputs |
| C56 | library model, `ToolStrings.v` | every call ends in one of the cases of a list of reasons; the list is in `ErrorVocab.v` |
| C57 | library model | the counter of allocation attempts and the new cells, from the same case analysis |
| C58 | `SumHandle.v`, `SumEntry.v` | the reasons in `SumErrorVocab.v`, with the position in the file after each read; the invariant of the read loop |
| C59 | `Evp.v` | lists of events in `EvpErrorVocab.v`: those that end a call and those that only add an entry; the answers of the provider to the calls of one context; an invariant on the cells above those of the caller for the freed memory. No contract of the provider is used |
| C60 | `CText.v` and the files written by `tools/ctext.py`, against `Transform.v`, `Context.v`, `Hash.v`, `ToolStrings.v`, `Getopt.v` and `SumHandle.v` | one rule per statement and expression of the language; symbolic execution of each function, with invariants for the loops; calls by the theorem about the function called; `C60_digest` and `C60_hmac` put this together with C01-C06 and no longer mention the model, likewise the theorems with `text` in their names of C31, C32, C33, C43, C45 and C59 |

## 4. Trusted base

* The Coq 8.16.1 kernel, including its conversion of `vm_compute` proofs.
* The correspondence between the Coq definitions and the C text, documented by
  the file/line comment on each definition.  For `libhmac_X_context.c` and
  `libhmac_X.c` and for the files of `TextTools.v`, `TextSum.v`, `TextMain.v` and `TextStart.v` this is C60, and what is left to trust is: `tools/ctext.py`, which reads the
  files and writes them as Coq terms without simplifying them (macros become Coq functions
  from expressions to expressions or statements; `#if` on the loop variant becomes a Coq `if`;
  dropped are the branches for libcrypto, which are in `TextEvp.v` alone, casts between pointer types, the name of the
  function for messages and the message texts), and the meaning of C in `CText.v` (integer
  promotion and conversion, wrap around, signed overflow and wide shifts undefined,
  arrays, local variables, calls, goto on_error).  There a pointer points into a byte
  array, a context structure or a local array, and structures have no padding.  In `TextEvp.v`
  each file is there once for each build: the functions of `md5.h` or `sha.h` with a long as wide as size_t or smaller, the EVP functions on a context
  in the structure or from `EVP_MD_CTX_new`, with `EVP_DigestInit_ex2` or without.  Members of the structure are read, assigned and
  addressed by the calls `->`, `->=` and `&->`; allocating and clearing the structure are calls as well, UINT_MAX, and ULONG_MAX where
  long has 32 bits, is `( uint32_t ) -1`; unsigned long is uint32_t there and size_t otherwise.  The contracts of all calls are in `EvpCalls.v`.  They are undefined where the code does not go
  (`EVP_MD_CTX_free( NULL )`, another member, another structure) and leave out what the model has no state for:
  `ERR_remove_thread_state` does nothing, and in the build with the context in the structure the member `evp_md_context` is only kept up to the
  provider's initialization, which is undefined unless that member and `EVP_MD_CTX_init` made it ready.  A context of the provider belongs to the digest of the file it is used in.
  `libhmac_X.c` has no `#if`, so the builds share its text; `EvpHash.v` gives it the calls of each build.  In `TextTools.v`
  the global variables of `hmactools_getopt.c` are parameters that hold their addresses, `*p` and `p++` on
  characters are written `p[ 0 ]` and `p = &( p[ 1 ] )`, and a function with `#if` on
  HAVE_VERBOSE_OUTPUT is there twice; whether char is signed is a parameter.  In `TextSum.v` the members of the
  structure behind `sum_handle`, and the number of reads from the file and the offset in it, are parameters that hold
  their addresses and are passed along; allocating the structure and clearing it are calls with contracts
  (`SumCalls.v`), the members X_context_initialized, which nothing reads, are dropped.  The functions of libhmac that
  `sum_handle.c` calls are there those of `Context.v`, and `digest_hash_copy_to_string` and `byte_size_string_convert` those
  of `ToolStrings.v`, for which C60 is proved too; calls from `sum_handle_process_input` to functions of its own file execute their text.  Of what
  `sum_handle_process_input` leaves, the offset in the file is not compared, since the model does not return it; and it is compared from a
  file not yet read, for sizes below 2^64 and a number of turns of the loop that is at least the size.  In `TextMain.v`
  what is printed on stderr, `libcnotify_verbose_set` and printing and freeing the error object are left out; the options,
  `source`, `program`, `stdout` and the global variable `hmacsum_sum_handle` are parameters; reading `hmacsum_abort` is a call
  that counts the looks; `goto on_abort` is the `break` of a switch around what stands before that label.  The calls of
  `sum_handle.c` from there execute their text.  What is compared is the exit code, memory, the error entries (as if
  none were freed) and the text printed on stdout.  In `TextStart.v`, which is `main` from its first statement to the options, `argc`, `argv` and the
  global variables of `hmactools_getopt.c` are parameters; the call of `hmactools_getopt` executes its text; `while( ( option = ... ) != -1 )` is a
  `for` whose step is the assignment, and the `switch` over the letter, each of whose branches ends with break or return, is a chain of `if`;
  what stands behind the options is a last call that executes `TextMain.v`.  `libclocale_initialize` and `hmactools_output_initialize` return any integer; the usage, version and
  copyright notices and what goes to stderr are not kept (but the strings that stderr is given are read); the literal of options is an
  array somewhere in memory.  What is compared is the same, for arguments whose total size fits an int and for a `libcsplit` that splits a string into at
  most one part more than it has characters (`C60_program`).
* The specifications: `Spec.v` (tested against the vectors of the standards in
  `SpecTests.v`) and the `*Vocab.v` files.

### What `Print Assumptions` lists

Every property theorem is "Closed under the global context", except for the
theorems of `PropTables.v` about real numbers.  Those list axioms of the standard
library's real numbers, and nothing else:

| axiom | theorems of `PropTables.v` |
|---|---|
| `ClassicalDedekindReals.sig_forall_dec`, `FunctionalExtensionality.functional_extensionality_dep` | all but `C29_start_values` (10 theorems) |
| `ClassicalDedekindReals.sig_not_dec` | `C29_md5_sines`, `C29_spec_md5_sines`, `C29_primes_and_roots` |
| `Classical_Prop.classic` | `C29_primes_and_roots` |

### Assumed about what is called but not modelled

| callee | in the model |
|---|---|
| malloc | succeeds or fails as an arbitrary function of the number of earlier attempts says; new memory has arbitrary contents |
| memset, memcpy, free | their standard meaning; memcpy of overlapping areas, access outside a block or to a freed one is `Undef` |
| libcerror | an error is an entry in a list; `libcerror_error_set` never fails |
| snprintf, strlen, strchr, memchr (C60) | the contracts in `ToolCalls.v`: a conversion prints as C11 7.21.6.1 says and is undefined for an argument of another type; the string functions are undefined when the string has no end |
| libclocale decimal point | an arbitrary result: none, or a character that is no digit, no letter and not NUL |
| libcsplit | an arbitrary function from the string to failure or a list of segments, any of which may fail to be got |
| libcfile | an arbitrary record: whether open, size, close and free succeed, the contents, and how many bytes each read gives (at most the number asked) |
| signals | an arbitrary time at which the abort flag is set, seen at the next look at it |
| OpenSSL (C45, C59, C60) | a record of arbitrary functions of the state; those of C45 assume the contract `honours` (a call that returns 1 has absorbed the data or given the digest; nothing but bytes, at most one digest of them, is written) and, where said, `reliable` (every call returns 1). C59 and C60 hold for every such record; for calculate_hmac by its text they assume that only bytes are written (`gives_bytes`). EVP_MD_CTX_new allocates like malloc |
| CPython (C47, C49) | argument parsing gives a bytes object, another object, or fails; PyBytes_Size is at most SSIZE_MAX; PyBytes_FromStringAndSize and tp_alloc allocate like malloc; a failed tp_init is followed by tp_dealloc of the object; PyErr_Format sets the exception. NULL without an exception, and a result with one, are `PUndef` |
| CPython (C52) | PyErr_Fetch hands over the references of the pending exception and clears it; PyObject_Repr and PyUnicode_AsUTF8String are arbitrary functions that may fail; PyOS_vsnprintf writes at most the size given and terminates; PyErr_Format takes `%s` texts of any length |
| CPython (C53) | PyArg_ParseTupleAndKeywords with the formats `O` and `OO`: positions first, then keywords by name; too many, missing, doubled or unknown ones are a TypeError. PyModule_Create, PyType_Ready, PyModule_AddObject succeed or fail arbitrarily; PyModule_AddObject takes the reference only on success |
| signal (C54) | signal() keeps the handler attached after a delivery (BSD semantics); a signal comes between two statements, each of which is one step. A signal without handler ends the process |
| fuzzing engine (C55) | calls the target with accessible bytes or NULL, one call after another |
| threads (C46) | accesses of the calls to the context happen one at a time in some order; one memory_copy, one transform and one finalize are single accesses. Real interleavings are finer, and unsynchronised accesses to one object are undefined in C anyway: the refutations do not depend on this, and threads on separate contexts share only what they read |
| records (C44) | that `Trace.v` records what the text does: every C condition is written through `cond` or `ocond`, every access through a step that names its place. The theorems `C44_same_function_*` tie its results, not its records, to the model. One statement's reads of a place count once; the compiler may do otherwise, and timing of single instructions is not considered |
| printf family | prints its text; does not fail |

### Not modelled

* the compiler: removal of dead stores (so "zeroed" means zeroed in the abstract
  machine), alignment, padding bytes of structures;
* `libhmac_error.c`, `libhmac_support.c`, `libhmac_i18n.c` and the internals of the
  libraries above;
* the tools and the Python bindings above the builds with libcrypto: they are modelled above the built-in functions.  What they call is C45, whose client calls the functions in the order in which `hmacsum` does;
* the wide character builds of the tools, and the Windows parts of the tools (the library itself has no Windows code for the digests);
* in the Python bindings: the message texts of single calls, object headers, reference counts of objects other than None, `pyhmac_X_context_new` (not reachable from Python) and the Python 2 branches;
* the version, copyright and usage texts of `hmacsum`, and its debug output.
