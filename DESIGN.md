# Formal model of F-Secure/fsdyn in Coq 8.16.1

## 1. Layout

All Coq files live in `rocq/theories/` (logical prefix `Verif`). For every module X of the
library there are up to four files:

* `XModel.v`  - the executable Gallina model, function by function; each definition cites file and lines in /repo.
* `XSpec.v`   - a small, independent specification (mathematical lists, sets, calendar, RFC tables ...).
* `XProofs.v` - lemmas and proofs.
* `XProps.v`  - only the property theorems (`Theorem ... exact ...`), each followed by `Print Assumptions`,
  and `Example`s showing that the hypotheses are satisfiable on non-trivial instances.

## 2. Modelling conventions

* **Outcomes.** `Base.v` defines `res A := Ok a | UB | Abort | NoFuel`. Undefined behaviour (out-of-bounds or
  freed-memory access, NULL dereference, signed overflow where it can occur) is the distinct outcome `UB`;
  a failing `assert`/`abort()` is `Abort`; `NoFuel` is the exhaustion of the recursion fuel of a loop. Theorems say
  that the outcome is `Ok ...`, so they exclude the other three.
* **Integers.** Z with explicit wrap-around (`u64`, `u32`, `u8`, `s8`, `s32` ...) wherever the C type can wrap. Platform:
  LP64, two's complement, signed `char` (x86-64 Linux), as in the project's own builds.
* **Buffers and C strings** are `list Z` blocks of bytes 0..255; a pointer into a block is an index; reads/writes
  are bounds-checked and give `UB` when outside. NUL-terminated strings are blocks containing a 0.
* **Heap structures** (list, hash table, AVL tree) live in the heap of `Heap.v`: typed cells by address, one cell per
  allocated struct; NULL is 0; access to NULL, freed or unallocated memory or to a cell of another type is `UB`.
  The allocator is arbitrary: the n-th allocation returns any free non-NULL address (exhaustion aborts in
  `naive_realloc`, src/fsalloc.c, so these modules never see NULL); all theorems quantify over it. src/fsalloc.c itself
  has its own heap of byte blocks in `FsallocModel.v`, where the C library may also refuse a request.
* **Callbacks** (`cmp`, `hash`, `reloc`, `read_cb`) are arbitrary pure functions (or oracles) given as arguments; the assumptions a
  theorem needs (e.g. that `cmp` is a total preorder) are explicit hypotheses in its statement. In C135, C136 and C137 they read the keys
  from memory when they are called.
* **errno** is modelled where the API documents it, as part of the result.
* **Generated C** (Unicode/IDNA tables): the generators (`src/*.py`, `src/gen_idna_table.c`) are modelled: the text tables of
  /repo are transcribed into Coq data by `tools/gen_unicode.py`, `tools/gen_idna.py` and `tools/gen_charstr.py`, and the model of the generated C functions is computed
  from that data in Gallina the way the generator does it.

## 3. Trusted base

* Coq 8.16.1's kernel (including `vm_compute`).
* The reading of the C code into the model (no code is run here); the simplifications listed in section 5.
* `Print Assumptions` for each theorem is printed at build time under each theorem; see section 6 for the summary.

## 4. Plan per property

| id | model | proof |
|----|-------|-------|
| C01-C05 | `Base64Model.v`: size, put4, encode_buffer, tables (as the C compiler reads them, incl. the missing comma), get_bits, decode loops, tail checks, `*_simple` | bit-level RFC 4648 spec over bit lists; induction over 3-byte groups; decoder characterised by an accepted-language spec; refutations by witness |
| C06-C07 | `FloatModel.v` | equivalence with Flocq's `B2R (b64_of_bits v)` (uses the stdlib axioms of Coq's reals) and with an axiom-free dyadic spec |
| C08-C09 | `DateModel.v` | spec = iterate a one-second tick of the Gregorian calendar; 400-year sweep by `vm_compute` lifted by periodicity; refutation for negative epochs |
| C10, C70 | `IntegerModel.v` (tagged integers; the hash functions of src/hashtable.c) | case analysis, induction |
| C11-C13 | `IntsetModel.v` (64-bit words, wrap of `unsigned`, ctz) | refinement to a predicate on numbers, bit lemmas (`Z.testbit`) |
| C14-C18 | `ByteArrayModel.v` (block of bytes, capacity, cursor, wraps) | refinement to `list byte` by induction over operations; callback as oracle |
| C19-C22 | `ListModel.v` (heap) | representation predicate `list_rep`, refinement to sequences |
| C23-C27 | `HashModel.v` (heap, on top of `ListModel`) | refinement to an association list/finite map |
| C28-C35 | `AvlModel.v` (heap, parent pointers, field by field) | representation by address-annotated trees, refinement to sorted association lists, AVL height bound |
| C36-C39 | `PriorqModel.v` (array, reloc log) | heap-order invariant, permutation, locator invariant |
| C40-C46, C71-C72 | `CharstrModel.v` | list specs |
| C47-C51 | `Utf8Model.v` | RFC 3629 spec; refutation for overlong forms |
| C52-C55 | `UrlModel.v` | list specs; refutation of the documented table |
| C56-C61 | `NormModel.v`, tables `UcdData.v` (from the data files, by tools/gen_unicode.py) | UAX #15 spec over code-point lists (`NormSpec.v`); table facts by computation over binary trees (`Ptree.v`, `NormTables.v`); loops against folds; refutations for Hangul and overlong NUL; `NormFit.v` characterizes what is written for any amount of space |
| C62-C66 | `PunyModel.v` (generic in the table lookups), `IdnaEncodeModel.v` (the real tables) | RFC 3492 decoder as spec (`PunySpec.v`), mapping as listed in IdnaMappingTable.txt (`IdnaEncodeSpec.v`); the encoder loop against the decoder loop; refutations by witness, computed with a partial library proved to agree with the real one (`PunyLe.v`) |
| C76-C83 | same model; `PunyUnique.v` (the RFC 3492 decoder is injective), `NormExact.v` (exact behaviour of decomposition), `IdnaEncodeMore.v`, `IdnaEncodeFate.v` | the outcome as a function of the normalized name; witnesses for what is false |
| C84 | `NormModel.v` (detector), `NormDetect.v` | "yes" by the quick-check lemmas of C56/C57; "no" because everything in a normalized string is either undecomposable or the result of a composition, and the tables give "no" to neither |
| C85 | same model; `CompatData.v` (compatibility mappings of UnicodeData.txt, used by the specification only), `NormCompatSpec.v` (NFKD, NFKC), `NormCompat.v` | "yes" for NFKC reduces to C84 because such characters decompose the same way in both forms; "no" because NFKC output is built from undecomposable characters by compositions, and the table gives "no" to none of the results |
| C89 | same model; `NormEquivSpec.v` (canonical equivalence as the least equivalence relation), `NormEquiv.v` | every generating step keeps the NFD; decomposition, reordering and composition are such steps |
| C90 | `PriorqCostModel.v` (the functions with a comparison counter) | erasing the counter gives the model; log2 of the slot decreases |
| C91 | `IdnaTextModel.v` (lines, fields and numbers of the table; uses `CharstrModel.v`), `IdnaTextSpec.v` (the format) | uniqueness of the split into fields, atoms and stripped strings, over the theorems of C44-C46 |
| C92 | `PyModel.v` (the part of Python in use), `UcdTextModel.v` (seven scripts), `UcdTextSpec.v` (the formats of the files and what they say) | lemmas about split, strip, int and dictionaries; induction over the lines with the pairing of First and Last lines as invariant; the later of two lines wins, in the dictionaries as in the specification |
| C93 | `AvlModel.v`, `AvlAnySpec.v` (histories with an unlawful comparison function) | the representation by trees of C28-C35 without the order; every put is an insertion or a replacement at some place |
| C94-C96 | `ByteMemModel.v`: src/bytearray.c again, with arrays and blocks at addresses in one memory, sources as pointers, and memcpy of overlapping ranges undefined; `ByteMemSpec.v` (worlds of byte sequences, with the largest size each array was asked for) | simulation by the functions of `ByteArrayModel.v`; a world invariant with a frame for everything else |
| C97 | `HashModel.v`, `HashAnySpec.v` (histories with unlawful functions) | the representation of C23-C27 with everything that depends on the laws removed |
| C98, C99 | `PriorqModel.v`, `PriorqAnySpec.v` (histories with any functions, histories with changing priorities) | permutation and locator invariants without the order; the order carried over from one function to the next on the elements that did not change; the failing removal computed |
| C100, C101 | `OwnModel.v` (the splitting functions and `charstr_idna_encode` with their blocks on the heap), `OwnSpec.v` (new blocks, and nothing else, between two heaps) | each function shown to do what its value-level model does, with the exact set of new cells; the set carried through the loops; freeing the result gives the first heap back |
| C102 | `ObjModel.v` (sets and queues as structures and arrays on the heap, with `destroy_intset` and `destroy_priority_queue`), `ByteHeapModel.v` (byte arrays in the same way), `ObjSpec.v` (programs with many objects; sets, multisets and byte sequences as their meaning) | each heap function shown to do what the value-level function does, touching its own cells only; an invariant over all objects with disjoint cells; the value-level theorems (C11, C12, C14-C18, C36, C37) then give the meaning |
| C103 | `DateModel.v`, `DateEdge.v` | interval arithmetic over the table lookups; refutations by witness |
| C104 | `ListModel.v`, `ListIterSpec.v` (what a traversal of a changing list visits; a client loop that removes) | the list invariant re-established after every change; the loop stands on an element of the current list; induction over the visits |
| C105, C106 | `HashModel.v`, `AvlModel.v`; client loops in `HashIterSpec.v` and `AvlIterSpec.v` | the place of the current element in the order of the traversal as the invariant; for the loop that does not end, induction on the number of steps it is allowed |
| C107 | `AvlModel.v`, whose recursive functions take the depth they may reach | the representation invariant of C93 gives a height that is logarithmic; each function succeeds within that depth and does the same within every greater one |
| C108 | `HashCostModel.v`: the functions of `HashModel.v` with a record of the keys compared | the record is erased to the model for all heaps; by induction along the bucket it is a prefix of the keys of the bucket, which the invariants of C23 and C97 describe |
| C109 | `IdnaEncodeModel.v`, `PunyModel.v` | every step is characterized by an equivalence: the detector by the quick check, decomposition by `NormFit.v`, mapping and the labels by the lemmas of C62-C65 and C76; every mapped codepoint has a category, by computation |
| C110 | `NormModel.v`; `NormQuickSpec.v` (the quick check by the rows of DerivedNormalizationProps.txt) | induction over the codepoints; no two rows disagree, by computation over pairs of rows |
| C111 | `ListModel.v`, `HashModel.v`, `AvlModel.v`, `ObjModel.v`, `ByteHeapModel.v`, `OwnModel.v` and `NewMemModel.v` on one heap; `MixSpec.v` (programs that hold many things) | every thing keeps a footprint of its own: a call changes nothing outside the footprint of its thing except for free blocks; induction over the program |
| C112 | `ByteArrayModel.v`, `ByteMemModel.v`: `make_byte_array` | false at 0 (the write of the NUL is out of bounds); case analysis for the rest |
| C113 | `PriorqModel.v`; `PriorqGrowSpec.v` (histories that record every replacement of the storage) | invariant: the storage is empty or a power of two, and less than twice the peak; induction over the history |
| C114 | `AvlWalkModel.v`: the functions of `AvlModel.v` with a count of the links followed | the count of every step from the place of the element in the tree; the sum over all places by induction over the tree |
| C115 | `HashWalkModel.v`: the functions of `HashModel.v` with a record of the slots looked at | the record of every step from the buckets; induction over the elements that follow |
| C116 | `UrlHeapModel.v`: the encoder functions on the heap, byte by byte, with the static encoder as a block; `UrlHeapSpec.v`: the reachable states and the code of a byte | a table block holds a code for each byte; each store into it changes one code; invariant of the reachable states |
| C117 | `NewMemModel.v`: the functions that return one block, on the heap | content from the value-level theorems, block from the allocator |
| C118 | `GenMemModel.v`: lines 121-174 of the generator on the heap; `GenMemSpec.v`: the table as a block of pointers | the memory as a list of objects (strings, lists) beside the memory of others; each call adds, changes or removes objects; permutations of the objects by counting |
| C119 | `StackModel.v`: the functions with local arrays and recursion once more, with limits | equality with the unlimited functions: decoding advances by at most 4 bytes, labels lie within the 254 bytes that `encode_filtered` accepts; the depth by a check of the decomposition table; concrete inputs that need the limits |
| C120 | the tables of `Base64Model.v` | all entries are checked by computation in the kernel, for the alphabet of RFC 4648 and the enumeration of include/base64.h |
| C121 | `NormCostModel.v`: charstr_unicode_decompose with costs | the results are unchanged; the exact cost of sorting a list of codepoints by the invariants of C56; induction over the list for the upper bound; a family of strings for the lower bound |
| C122 | `RecompCostModel.v`: charstr_unicode_recompose with costs | the results are unchanged; the number of codepoints that the first recomposer holds as a potential |
| C123 | `CppPtrModel.v`: programs over smart pointers, with std::unique_ptr and std::function as the C++ standard describes them | the objects handed over as a permutation of those destroyed, held and released, preserved by every operation |
| C124 | `ThreadModel.v`: steps of single accesses, a machine that runs threads in any order; `ThreadApi.v`: the steps of each public function of lists, hash tables, trees, integer sets, priority queues and byte arrays | the specification (`ThreadSpec.v`) is the effect of the functions for a thread alone; a weakest precondition per access, and the invariant that memory is the disjoint union of what the threads own and what is shared |
| C125 | `AvlModel.v`, `HashModel.v` | a step of the histories of C23-C35 at which the functions behind the pointers change; the invariants depend on the keys that are present only |
| C126 | `HashCostModel.v` | primality of all sizes by trial division in the kernel (`Primes.v`); no operation changes the length of an array (`rigid`); members of a progression that meet in a slot differ by multiples of the prime |
| C127 | `CharSignModel.v`: base64.c and hash_string with the signedness of char as a parameter; the other functions on the chars that the bytes become | the functions see chars only through conversions to bytes, masks and comparisons; false for the Base64 defaults and for hash_string |
| C128 | `Base64Model.v`, `UrlModel.v`, `Utf8Model.v`, `CharstrModel.v` | the specifications of C01-C54 are homomorphisms; results are unique |
| C129 | `WidthModel.v`: the computations of sizes with the widths of size_t and unsigned long as parameters; with 64 bits they are the other models' (`C129_64_bits`) | the loops of the other proofs again, with the exact condition for the block to be large enough; false for URL encoding, sanitizing and the largest sets |
| C130 | `StreamCbModel.v`: byte_array_append_stream cut at the call of the callback, which carries out commands of C94's programs and then writes to its buffer | the invariant of C94 through the first part, the commands and the second part; false if the array moves or changes its length |
| C131 | `ErrnoModel.v`: the decoders with errno and the place for the size; `ByteArrayModel.v` | the verdicts of C04 and C54; every path through the array operations |
| C132 | `TestAvlModel.v`, `TestMoreModel.v`, `TestPerfModel.v`, `TestIdnaModel.v`, `TestNormModel.v`, `TestDateModel.v`: the test programs as programs over the model, with arbitrary data; `TestSpec.v`, `TestPerfSpec.v`, `TestIdnaSpec.v`, `TestNormSpec.v`, `TestDateSpec.v`: what the data has to be | loop invariants over the histories of C28-C35 (the memory next to the trees is tracked), C36/C37 for the queue, C136/C137 for priorq_perf.c, C44/C46/C63/C66/C100/C101 for charstr_idna_test.c, C11/C12 for the sets, C02-C05 for Base64, C56/C59 for normalization, C100/C101 for the lines of its file, C08 for date_test.c |
| C133 | `ByteHeapModel.v` access by access (`ThreadApi.v`), on the machine of C124; `RefThreadSpec.v` (what threads do with references) | schedules of single accesses that lose a change of the counter; induction over the calls if these are made one at a time |
| C134 | the functions of `ListModel.v`, `HashModel.v`, `AvlModel.v`, `ObjModel.v` and `ByteHeapModel.v` without loops; `ConstSpec.v` (functions with the effect of at most n accesses) | the accesses read off the functions by a tactic, each path counted |
| C135 | `KeyModel.v` (get, put and pop of hash tables with callbacks that read memory; strcmp), `KeySpec.v` | the callbacks at each moment as constant functions: the calls are those of `HashModel.v`, and `ht_history` goes on with the functions of the next moment (`HH_change`) |
| C136 | `TreeKeyModel.v` (the functions of AVL trees that compare keys, with a callback that reads memory), `TreeKeySpec.v` | the callback at each moment as a constant function: the calls are those of `AvlModel.v`, and `avl_history` goes on with the function of the next moment (`AH_reorder`) |
| C137 | `QueueKeyModel.v` (priority queues on the heap with all fields, a comparison that reads elements and a reloc function that writes to them), `QueueKeySpec.v` | simulation of `PriorqModel.v` with the comparison of the moment as a constant function and its trace of reloc calls as the notes in the elements; `PriorqProofs.v` |
| C138 | `DateModel.v`, `DateOrderSpec.v` (the order of the fields) | the calendar of C08 counted from 1600-03-01 moves forward every day; division towards zero keeps the order of quotient and remainder |
| C139 | `CharstrModel.v`, `Utf8Model.v`, `Utf8KeepSpec.v` (UTF-8 is what charstr_valid_utf8 accepts) | a byte outside 0x80-0xbf is the start of an encoding in every valid string (induction over its encodings), so the parts of C43-C46 start and end between encodings; the first bytes of encodings are ordered as the codepoints |
| C140 | `UrlModel.v`, `CharstrModel.v`; `UrlListSpec.v` (a character an encoder never emits; a string that is encoded and decoded) | C52/C53 for each string, C44 and the uniqueness of parts without the delimiter for the splitting; induction over fields and records |
| C141 | `IdnaEncodeModel.v`; NFC and the mapping of `NormSpec.v`, `IdnaEncodeSpec.v` | false, see below; otherwise: the table maps capital letters as it maps small ones, and the result depends only on the mapped name |
| C142 | `IdnaEncodeModel.v`; labels, NFC and the mapping of `IdnaExactSpec.v`, `PunySpec.v` | false, see below; otherwise: the quick check and the mapping work codepoint by codepoint, and the labels of a.b are those of a followed by those of b |
| C86-C88 | `FsallocModel.v`: src/fsalloc.c over a C library heap whose placement and failures are arbitrary; custom reallocators and counters are arbitrary functions; charstr_vprintf with an arbitrary formatter | case analysis; induction over call sequences |
| C67 | `IdnaTab*.v`, `IdnaModel.v`, `IdnaProps.v` | the generator program is modelled and its output proved right for every input table, with the exceptions stated; refutations by witness |
| C68 | `Category*.v` | `categorize.py` is modelled as a program that emits C code; proved for every file of the UnicodeData format, and the real file is checked to have the format |
| C75 | `Case*.v` | the generated switch statements; generic lookup theorem plus checks of the real rows |
| C69 | `IntegerModel.v` (fscalloc; the same function over a heap of blocks is in `FsallocModel.v`, C86) | arithmetic; refutation by witness |
| C73 | `IntsetModel.v` | the same refinement without a bound on the size; refutations by witness; above 2^32 - 64 the search as one that goes round the first 2^32 bits (`IntsetEdge.v`) |
| C74 | `ListModel.v` | the loop of `list_get_by_index` with its `int` counter; the witness is a list of 2^31 elements, reasoned about, not computed |

Every property is expressible in a model; none is planned as not applicable.

## 5. What is modelled and what is not

Every function of every C file in src/ is modelled with the exceptions listed here. Comments in the model say where a
definition deviates from the code.

| file in /repo | model | not modelled |
|---|---|---|
| src/avltree.c, include/avltree*.h | `AvlModel.v` (heap, field by field); comparisons that read memory in `TreeKeyModel.v` | - |
| src/base64.c | `Base64Model.v` | - |
| src/bytearray.c | `ByteArrayModel.v` (arrays as values), `ByteMemModel.v` (with pointers), `ByteHeapModel.v` (on the heap of the other containers) | the read callback writes to the buffer it is given only; `StreamCbModel.v` has callbacks that use byte arrays |
| src/charstr.c | `CharstrModel.v`, `CharstrTables.v` (tables, generated from the source text by tools/gen_charstr.py), `Utf8Model.v`, `UrlModel.v`; `charstr_vprintf` in `FsallocModel.v`; who owns the strings in `OwnModel.v` and `NewMemModel.v`; encoder objects in `UrlHeapModel.v` | locale and formatting of vsnprintf |
| src/charstr_decompose.c, src/charstr_recompose.c, src/charstr_unicode.c | `NormModel.v` | errno of the detector where the API gives no meaning to it |
| src/charstr_puny.c | `PunyModel.v` (any tables), `IdnaEncodeModel.v` (the real ones), `IdnaModel.v` (`charstr_idna_status`), `OwnModel.v` (allocation and freeing of the work areas) | variable-length arrays are blocks of their length (a length of 0 is `UB`) |
| src/date.c | `DateModel.v` | - |
| src/float.c | `FloatModel.v` | - |
| src/fsalloc.c | `FsallocModel.v` | changes of the reallocator or the counter while other threads run: they are plain globals |
| src/hashtable.c, include/hashtable*.h | `HashModel.v`, hash functions in `IntegerModel.v`; callbacks that read memory in `KeyModel.v` | - |
| src/integer.c, include/integer.h | `IntegerModel.v` | - |
| src/intset.c, include/intset*.h | `IntsetModel.v`, on the heap with `destroy_intset` in `ObjModel.v` | - |
| src/list.c, include/list*.h | `ListModel.v` | - |
| src/priority_queue.c | `PriorqModel.v`, on the heap with `destroy_priority_queue` in `ObjModel.v`; callbacks that use the heap, and `dummy_reloc`, in `QueueKeyModel.v` | - |
| src/gen_idna_table.c | `IdnaTextModel.v` (from the text to the rows), `IdnaTabModel.v` (from the rows to the C code it prints, and the meaning of that code), `GenMemModel.v` (allocation and release while reading) | the fscalloc/fsfree pair of generate_set; that the rows in `IdnaData.v` are those of the file in /repo (done by tools/gen_idna.py) |
| src/categorize.py, src/lower_case.py, src/upper_case.py, src/canonical_combining_classes.py, src/decomposition.py, src/recomposition.py, src/allowed_in_normal_form.py | `UcdTextModel.v` over `PyModel.v` (from the text of the files to the cases of the C code), `CategoryModel.v`, `CaseModel.v`, `NormModel.v` (the meaning of the functions written) | the wording of the C code; opening of files and their decoding; carriage returns; that the tables in `UcdData.v`, `CategoryData.v` and `CaseData.v` say what the files in /repo say (done by tools/gen_unicode.py; the formats are checked by tools/check_ucd.py) |
| C++ parts of include/*.h | `CppPtrModel.v` (smart pointers) | `extern "C"`; exceptions of constructors of std::function (none of them allocates for a function pointer) |
| test/avltest.c, test/priorq_test.c, test/priorq_perf.c, test/intset_test.c, test/base64_test.c, test/charstr_normalization_test.c, test/charstr_idna_test.c, test/date_test.c | `TestAvlModel.v`, `TestMoreModel.v`, `TestPerfModel.v`, `TestIdnaModel.v`, `TestNormModel.v`, `TestDateModel.v` | the random data, the clock and the messages; rounding in the computation of the limit on the height in avltest.c |
| SConstruct, components/, scripts/, the other files in test/ | - | all |

General simplifications:

* LP64 (C129 has other widths), signed `char` (C127 compares with unsigned `char`), two's complement; conversions to a narrower signed type wrap (as gcc and clang do).
* Single thread, except C124 and C133. errno only where the API documents it.
* Callbacks do not call back into the structure they are called from, except those of `list_foreach` (C104), which are
  arbitrary heap functions, and those of `byte_array_append_stream` in C130.
* `make_avl_tree` and `make_priority_queue` cast callbacks of two arguments to functions of three and call them so
  (src/avltree.c:29, src/priority_queue.c:39). ISO C leaves such calls undefined; the model calls the callback with its two
  arguments, as the usual calling conventions do.
* Pointers are compared for equality only, or within one block.
* Struct padding, alignment and `sizeof` are not represented except in the size computations of the code.
* Memory exhaustion ends the program (`naive_realloc` calls abort) and is modelled in `FsallocModel.v` only.
* Loops have fuel. For every loop a theorem shows that the fuel given suffices, as the theorems state the outcome `Ok`.

## 6. Assumptions

`Print Assumptions` stands under every theorem of the `*Props.v` files. All of them are
"Closed under the global context", with these exceptions, which use Flocq's real-number semantics of binary64 and so the
axioms of Coq's standard library of real numbers:

* `C06_binary64_to_integer_flocq`, `C07_binary64_to_unsigned_flocq`:
  `ClassicalDedekindReals.sig_not_dec`, `ClassicalDedekindReals.sig_forall_dec`,
  `FunctionalExtensionality.functional_extensionality_dep`, `Classical_Prop.classic`.

Both have an axiom-free counterpart (`C06_binary64_to_integer`, `C07_binary64_to_unsigned`) over a dyadic specification.

The data files transcribed by the tools (`UcdData.v`, `CategoryData.v`, `CaseData.v`, `CompatData.v`, `IdnaData.v`,
`CharstrTables.v`) are trusted to be faithful transcriptions; the tools read /repo as text and do not run its code.

## 7. Findings

Places where the code does not do what its documentation or a user would expect; each is a theorem.

| id | finding |
|----|---------|
| C04 | A comma is missing in the base64 decoding table: byte 0xFF decodes like `A`, DEL counts as whitespace (`C04_refuted`, `C04_refuted_del`). |
| C120 | The same two entries of the public table base64_bitfield_decoding are not as documented (`C120_refuted`). |
| C121 | charstr_unicode_decompose takes quadratic time for strings with many unsorted combining characters (`C121_refuted_family`); charstr_idna_encode calls it before it checks the length of the host name. |
| C09 | Negative epochs that are not midnight give negative hours, minutes or seconds (`C09_refuted_always`). |
| C15 | A read callback that fails after writing leaves the byte array without its NUL (`C15_refuted`). |
| C103 | `epoch_to_utc` reads in front of a table for most days before 1600-03-01, overflows from the year 5 881 210 on, and repeats dates after 2^32 days (`C103_refuted`, `C103_refuted_wraps`). |
| C104 | `list_foreach` reads the current element after the callback has returned, so a callback that removes it causes a read of freed memory (`C104_refuted`). |
| C106 | `hash_table_put` moves a replaced key to the end of its bucket. A loop that gives every key a new value, and fetches the next element before each call, runs forever when two keys share a bucket (`C106_refuted`). |
| C32 | `avl_tree_put` of the identical pair replaces the element and returns the old one (`C32_put_identical_refuted`). |
| C42, C46 | Five misplaced entries in the character class table; whitespace is SP, BS, HT, LF, VT (`C42_refuted`, `C46_refuted`). |
| C48, C60, C77 | Overlong UTF-8 is accepted, also in host names; an overlong NUL shortens strings (`C48_refuted`, `C60_refuted`, `C77_refuted`). |
| C55 | Three bytes deviate from the documented URL encoding (`C55_refuted`). |
| C56, C57 | A Hangul syllable whose decomposition does not fit is emitted undecomposed, with success (`C56_refuted`, `C57_refuted`). |
| C63, C65, C78, C82 | Host names: empty labels, labels ending with a hyphen, labels beginning with a nonspacing mark and unnormalized mapped names are accepted. |
| C141 | Host names that differ only in the case of ASCII letters can have different encodings (H and h with U+0331), again because the mapped name is not normalized. |
| C142 | A name can be encoded although its parent domain cannot (U+4E00 . U+1D160), because the space for decomposition depends on the size of the whole name. |
| C64 | A name of ignored codepoints creates a zero-length array (undefined behaviour); a long ASCII label next to a non-ASCII one fails an assertion. |
| C67 | U+2FA1D, U+3134A and U+E01F0..U+10FFFF have no IDNA status (`C67_status_refuted`). |
| C68 | Unassigned codepoints before a lone codepoint get its category (`C68_unassigned_refuted`: U+0378 gives Lm). |
| C69 | `fscalloc` multiplies without an overflow check (`C69_refuted`). |
| C73, C74 | Sizes above INT_MAX: negative search results of integer sets, undefined behaviour of `list_get_by_index`. Sizes above 2^32 - 64 (UINT_MAX among them): the 32-bit position of the search wraps, so `intset_empty` of an empty set never returns and a search finds elements below its start. Sizes above 64 * (2^32 - 1): `intset_fill` never returns. |
| C76, C79 | Names that are valid but expand much in decomposition or mapping are rejected. |
| C127 | Where char is unsigned (ARM), the Base64 functions do not recognise -1 as the default for the last two characters: both become the byte 0xFF, standard texts with '+' or '/' are rejected (`C127_decode_default_refuted`) and a round trip changes data (`C127_round_trip_refuted`). `hash_string` depends on the platform (`C127_hash_refuted`). |
| C129 | Where size_t has 32 bits, `charstr_url_encode` and `charstr_sanitize_utf8` of a string of about 1.43 GB write beyond the end of their block, since the size wraps (`C129_url_encode_refuted`, `C129_sanitize_refuted`). `make_intset` with a size above 2^32 - 32 makes an empty block, and each operation on an element is out of bounds (`C129_intset_refuted`). |
| C130 | `byte_array_append_stream` gives its callback a pointer into the array and reads the cursor again afterwards. A callback that appends to the array makes it write to freed memory, or loses the bytes and exposes uninitialized ones (`C130_refuted`). |
| C133 | The reference counter of a byte array is not atomic. Threads that share an array need a lock even for `share_byte_array` and `destroy_byte_array`: otherwise the array may leak (`C133_leak_refuted`) or be freed while it is in use (`C133_use_after_free_refuted`). |
| C112 | `make_byte_array(0)` writes the NUL to a block of no bytes (`C112_refuted`). |
| C95 | Appending a byte array's own bytes to it, or copying them into it, reads freed memory when the array has to grow (`C95_refuted`). |
| C98, C99 | `priorq_remove` of the last slot lifts the removed element back into the queue if it now comes before the element above it; that element is lost (`C98_refuted`, `C99_refuted`). This hits users who raise a queued element's priority and then remove and re-enter it. |
| C91 | The table generator does not take a carriage return for whitespace, a consequence of C42 (`C91_carriage_return`). |
| C81 | Labels that already begin with `xn--` are accepted, so different names may have one encoding (`C81_refuted`). |
