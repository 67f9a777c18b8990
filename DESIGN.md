# Formal model of qdpxx

Plan (written before the proofs; updated as the work proceeds).

The model is written in Gallina over the Coq standard library only.  Each group of
properties has four files: `XModel.v` (definitions transcribed from the code, each with the
file and lines it models), `XSpec.v` (small independent specification, where one is
needed), `XProofs.v` (lemmas) and `PropX.v` (the property theorems only, each closed by
`exact`, with `Print Assumptions` and a non-vacuity example).

Undefined behaviour, aborts and uninitialised values are distinct outcomes in the model.
Where the code violates a property the theorem is named `..._refuted` and the finding is
listed below.

## Properties and plan

- **C01 Lexicographic numbering is a bijection** - `LayoutModel.crtesn/local_site` (+ 3-d variants) over `list nat`; induction on the dimension list; mutual inverses.
- **C02 Single-process layouts are bijections** - four scalar layouts as functions over `list nat`; bijection from C01 plus parity arithmetic.
- **C03 Checkerboarded layouts store whole checkerboards contiguously** - same model; statement about `index / vol_cb` against an independently defined colour.
- **C04 Multi-node layouts are bijections onto (node, index) pairs** - parscalar layouts with the QMP node numbering as a Section-style argument (a bijection record); same technique.
- **C05 Inadmissible extents are really inadmissible** - model of create()'s self-check loop; for odd first extent exhibit failing index.
- **C06 Set::make partitions the sites** - model of Set::make as folds over local sites with an explicit abort outcome; induction over the site loop.
- **C07 Ordered-representation flags are exact** - same model; characterise the start/end scan.
- **C08 Predefined subsets have the documented membership** - colouring functions + LayoutModel; arithmetic on parity.
- **C09 Copying a Set gives an independent Set** - heap model of Set objects (ids, pointers from subsets to tables); refutation by witness history.
- **C10 A single-process map gathers from the mapped site** - model of Map::make goffsets + gather; functional specification `dest x = src (func x)`.
- **C11 Forward and backward shifts are inverse permutations** - NearestNeighborMapFunc in Z with C remainder; permutation and inverse proofs.
- **C12 A multi-node map equals the single-process map** - per-node model of make (goffsets, srcnode, soffsets, counts) and operator(); the message exchange as a function of all nodes' send buffers; equality with the global gather.
- **C13 Multi-node maps exist for every nearest-neighbour shift** - shows make's checks succeed for nearest neighbours from the layout equations.
- **C14 Threaded evaluation covers each site exactly once** - dispatch bounds over nat; partition lemma by induction on thread number.
- **C15 Data-parallel assignment is independent of threads and touches only its subset** - interleaving semantics of per-site writes; any permutation of the writes gives the same field.
- **C16 Thread dispatch never overflows** - the same bounds in wrapped 32-bit arithmetic; refutation plus exact safe range.
- **C17 Global sums do not depend on the schedule** - schedules as arbitrary partitions of the site list; Permutation-invariance of folds.
- **C18 The ring reduction gives bit-identical sums on all nodes** - ring algorithm as state of P buffers; closed form by induction on steps, arbitrary binary operation.
- **C19 globalMax and globalMin return an extremal element** - fold model; NaN-free total order.
- **C20 Seed arithmetic is exact modulo 2^47** - limb arithmetic in Z with explicit 32-bit range checks; nia/lia.
- **C21 Per-site multipliers are the right powers** - model of initRNG's bit loop; binary exponentiation invariant.
- **C22 Lattice random numbers do not depend on layout, node grid or threads** - combination of C20, C21 and layouts; functional description by coordinate.
- **C23 Random streams of different sites and draws never coincide** - order of the multiplier by 2-adic valuation induction.
- **C24 savern/setrn replay** - state machine over draws; determinism as replay equality on the API model.
- **C25 Random numbers lie in [0,1)** - exact dyadic value in [0,1); single precision by the stdlib SpecFloat model, refutation at the top seed.
- **C26 All nodes keep the same global seed** - multi-node state; refutation for a subset empty on one node, positive theorem otherwise.
- **C27 The global seed is well defined after every threaded fill** - threads with uninitialised locals as None; refutation and positive theorem.
- **C28 The RANNYU generator is the documented congruential generator** - limb model; refutation.
- **C29 RANNYU setrn is honoured** - state machine with the inited flag; refutation.
- **C30 Byte swapping is an involution that reverses each word** - buffers as byte lists; induction on words.
- **C31 The checksum is the standard CRC-32 and composes** - bitwise specification against table model; linearity.
- **C32 The checksum detects every single corrupted word** - linearity and invertibility of the CRC register step.
- **C33 Binary files round-trip and reader and writer checksums agree** - writer/reader as state machines over a byte stream with endianness parameter.
- **C34 Strings round-trip** - getline model; positive for newline-free strings, refutation otherwise.
- **C35 Lattice files do not depend on layout or machine** - writer loops for scalar and parscalar over the layout models; closed form = map over lexicographic coordinates.
- **C36 Lattice files in the 3-d checkerboard build match the other builds** - refutation with the 3-d crtesn.
- **C37 Time-slice and subset I/O move exactly the selected sites** - closed form of slice/subset loops; 3-d checkerboard refutation.
- **C38 peekSite and pokeSite behave as array access on every node** - functional update over the (node,index) bijection.
- **C39 The in-memory map object behaves as a finite map** - association-list model of the hash map keyed by serialised key; refinement to finite map.
- **C40 The on-disk map object returns the last inserted value** - byte-level file model; refutations.
- **C41 Write-only histories of the on-disk map are lossless** - byte-level file model; induction over inserts.
- **C42 A crash before the final close is detected** - file prefixes; case analysis on the header link.
- **C43 The 12-real gauge format loses nothing** - 3x3 algebra over a commutative ring with involution.
- **C44 Gauge archives round-trip with matching checksums** - word-level model of checksum loops and of the archive loops.
- **C45 Gauge archive headers describe the data** - header as key/value lines; refutations.
- **C46 Array comparison is a total order** - list comparison functions; induction; refutation for empty arrays.
- **C47 Multi-dimensional array indexing is collision free and in bounds** - index arithmetic.
- **C48 N-dimensional array indexing is consistent** - index arithmetic; refutation.
- **C49 Assignment copies arrays** - heap model with resize-before-copy; refutation for self-assignment.
- **C50 Aligned allocation is sound** - allocator state machine over an abstract underlying allocator.
- **C51 Node lists are deduplicated in order** - list recursion; the empty list is undefined behaviour in the model.
- **C52 Gamma matrices satisfy the Clifford algebra** - tables transcribed from the header by script; ring computation.
- **C53 Spin projection and reconstruction factor 1 +/- gamma_mu** - same plus streamed inline kernels over lists of reals.
- **C54 Colour contractions are epsilon contractions** - ring identity against an independent epsilon sum.
- **C55 Optimised kernels equal the generic expressions** - ring identities against independent matrix/vector specifications.
- **C56 Layout creation succeeds for every supported dimension** - initDefaultSets on top of the Set model; refutation for one and two dimensions.
- **C57 In-place shift stores the shifted field** - interleaving semantics of the map functor; refutation for the single-process build.
- **C58 Whole-lattice predicates quantify over every site of every node** - fold model.
- **C59-C61 Checksums, seeking and clearing of binary streams** - the stream model of C33; refutations.
- **C62 Lattice output stays within its buffers** - byte counts of the clear-to-send messages in the model of C35.
- **C63 QDP_extract and QDP_insert are inverse to each other** - functional update.
- **C64-C67 On-disk maps: creation, reuse, failed inserts, several files** - the byte-level model of C40.
- **C68-C70 Arrays: compound operations, partial assignment, norm2** - the heap model of C49.
- **C71 Lattice objects own aligned, disjoint memory** - allocator model of C50 and the constructors of OLattice.
- **C72, C73 Complex numbers, nested colour/spin objects** - overloads as recursive functions on trees; a denotation as arrays of complex numbers is the specification.
- **C74 Rewriting an expression does not change it** - expression trees, overloads that fuse nodes; semantics preserved.
- **C75 isnan, isinf, isfinite and isnormal look at everything** - recursion over the same trees, lattice loops, the global AND.
- **C76 Vector kernels stay within their sites** - kernel language with bounds checks; a verified symbolic executor.
- **C77 Specialised evaluate functions do what the expression says** - table of the 83 specialisations, dispatch to the kernels of C55, any subset and any number of threads.
- **C78 Colour matrix times half fermion** - same technique; refutation in place.
- **C79 Site numbers are computed without overflow** - the numbering of C01 in checked int arithmetic (`LayoutInt.v`).
- **C80 Fast norms and inner products of fermion fields** - the kernels of C55/C76 under the specialised functions, summed over nodes; linked to Set::make and layouts.
- **C81 Sub-lattices are values, subset views are references** - programs over a heap of blocks refine programs over
  functions from sites to values (`SubModel.v` against `SubSpec.v`), by induction over the program; sums separately.
- **C82 I/O nodes partition the machine** - the division of node coordinates by the block size, in C integer division; counting blocks with mixed radix numbers.
- **C83 QIO records are read back as they were written** - the site factories against a contract of QIO's read and write; file contents are big-endian words of the sites in lexicographic order; round trip between any two builds of C35.
- **C84 Lattice objects in HDF5 files are read back as they were written** - datasets as functions from indices to elements, hyperslab reads and writes as a contract; a node's part of the lattice is a box whose sites are visited in row-major order; block transfers by induction over the blocks; round trip and one theorem for each way it fails.
- **C85 HDF5 files are trees of named objects** - a file as a partial map from paths to groups, datasets and named types, with attributes; HDF5 calls as a contract on it; names as strings with the code's own splitting. Commands are shown to keep the tree and everything they do not name, by induction over programs; values are shown to come back. `ends` and `never_ends` speak of the loops of cd.
- **C86 Values written to XML are read back** - a document as a tree of elements with text; types as an inductive description (nested arrays, vectors, lists, maps, pairs), write and read as recursive functions on it, numbers in texts as the code's own `>>` loop over istringstream. Round trip by induction on the type; lists of numbers against a separate grammar of numerals; maps against look-up by key.
- **C87 All nodes see the same XML input** - programs as trees of queries with a branch for the answer and one for the exception; the primary node answers from the document and sends messages of bytes, the other nodes take the messages in order. Agreement by induction on the program; reading of every type is such a program, shown to do on the primary node what the model of C86 does.
- **C88 The command line and the life of the library** - the loops over the arguments with their index as in the code, for both builds, sscanf as in C45, reading past the arguments and using a number that was not read as undefined; a specification by parts of a line with "the last one decides"; by induction on the parts, and every other line shown undefined. The life of the library as a flag and an allocation over lists of calls.
- **C89 Floating-point numbers written as text** - numbers as integers in units of 10^-1074, rounding to p digits in any base with ties to even as one function, used with base 10 for writing and base 2 for reading; the spacing arguments for round trips between bases (steps of 10 against steps of 2), by a general lemma on the nearest multiple; arrays by induction.
- **C90 Arrays written to XML piece by piece** - the writer as a state machine over the marks of the shared stream, with its own stack of names; documents as trees; induction over trees of content for the array, an invariant on the open tags for all call sequences, and an equivalence between trees and balanced marks.
- **C91 Text files, buffers and standard streams on several nodes** - streams as characters left with eofbit and failbit and the rules of the C++ standard for operator>>, variables per node with broadcast; induction over the pieces written, an invariant over programs of reads for agreement; file objects as state machines over the files on disk.
- **C92 Numbers of colours and spins in the records of data files** - the static members as variables set from constants at load and from each other in an arbitrary order before main; induction over the chain of types.
- **C93 Stopwatches and profiling** - the stopwatch as a state machine over clock readings that may fail, compared with the list of intervals in the history; profiling as a state machine over sections and evaluations, invariants over histories extended at the end.
- **C94 Operators and functions in expressions** - all 436 functions and 92 tags as tables written by a script from the text; overload selection, construction and evaluation of the tree as functions over them; induction over expressions with computed checks of the finite tables.
- **C95 Functions of real, integer and boolean objects** - all functions of PScalar, RScalar and words as tables written by a script from the text; C++ overload resolution over the functions of words as a function; induction over the depth of wrapping with computed checks of the tables, for any machine arithmetic with four laws.
- **C96 Key-value databases on several nodes** - the bodies of the methods as lists of steps that all nodes make together; programs as trees of calls; induction over programs, for every behaviour of the database library.
- **C97 HDF5 readers and writers open, hold and close files as a user believes** - HDF5 as a contract: a table of open identifiers and the contents of the open files; objects with their identifiers; refinement of a small specification in which an object has a file and a group, by an invariant kept by every step, for all histories.
- **C98 A damaged gauge archive is noticed** - on the archive readers of C44 and C45: decoding of arbitrary bytes into words, the sum as a function of the bytes, induction over sites for files that end early (the buffer is part of the model of the multi-node reader).
- **C99 SSE kernels for double precision colour matrices** - the kernels translated statement by statement into a list of instructions of a small machine (registers of two numbers, pointers into blocks, faults on unaligned accesses); one pass of the loop is run symbolically on polynomials with integer coefficients and compared with the product by the normal form of the ring tactic; a simulation lifts it to all values and memories, an induction to all numbers of passes, another to all lists of calls.
- **C100 fermion statements and sums in SSE builds** - the kernels of C99's translation; the word by word kernels through the symbolic check for every pattern of equal operands, the sums with the accumulators carried from pass to pass as extra variables; then inductions over calls, chunks and threads.
- **C101 files of QDPFileReader and QDPFileWriter** - objects with their three data members (uninitialised as None), handles of QIO as a contract, arbitrary programs; a simulation between model and specification with an invariant (one holder per open handle, none without); separate invariants for all programs show that a forgotten handle is never closed.
- **C102 single precision fields in SSE builds** - a machine with registers of four floats, two doubles and scalars, aligned access that fails otherwise, and the kernels statement by statement; word by word kernels by induction over lines of four, sums by invariants of the software-pipelined loops, then chunks and threads as in C100.
- **C103 SSE kernels for spin projection and reconstruction** - the machine of C102 with moves and constants; all 24 kernels instruction by instruction (before the loop, body, after it). Runs on a window of one or two sites are computed symbolically and compared with the specification by ring; a simulation lemma transfers them to memory; induction over the sites with the loads for the next site as part of the invariant.
- **C104 Singletons over the life of a program** - Instance, DestroySingleton and the policies as functions on static data, a stack of atexit handlers and a log of events; invariant (pInstance_ points to living objects, numbers are fresh, the log is well behaved) over main and exit for all programs; for careful programs a second invariant: the handlers are the living objects in order of construction, above what their constructors used.
- **C105 XML output of lattice fields** - the operators << as functions on a stack of open tags, for single-process and multi-node builds (buffers of all nodes, arbitrary content on nodes that pass messages on); closed form of the tree by induction on objects; queries by attributes find exactly one element.
- **C106 the plaquette and the link in gauge archives** - mesplq on fields of every node, with the modelled shifts (C11, C13), products, adjoints and traces of the nested types; sums over sites by a permutation of all sites; gauge invariance by algebra of matrices with equality up to the size; int products are checked; composed with the archives of C44 (C106_archive).

## How to read the theorems

`rocq/theories/PropX.v` holds the theorems named in MANIFEST.json, each with `Print Assumptions`
and next to it an `Example` showing a concrete non-trivial case that meets the hypotheses (most of them
also run the model on it).  What a statement says depends only on `XModel.v` (the transcribed code) and
`XSpec.v` (the specification, written without the model's helper functions).  A theorem whose name ends in `_refuted`
shows that the property, as a user would expect it, does not hold of the code: either for one witness
or, where possible, as a general theorem saying exactly when it fails; the positive theorems beside it give the
condition under which it holds.

Outcomes (`Base.v`): `Val a`, `Abort` (QDP_abort, an exception, or an error return of the process), `Undef`
(undefined behaviour: out of bounds, uninitialised, signed overflow where it is modelled, null pointers).
A theorem that concludes `= Val ...` therefore also excludes aborts and undefined behaviour.

## Trusted base

- The kernel of Coq 8.16.1 (including `vm_compute`; `native_compute` is not used).
- `Print Assumptions` reports "Closed under the global context" for every theorem in MANIFEST.json: no
  axiom is used, neither own ones nor those of the standard library.  (A tool that lists every axiom in the loaded
  libraries also shows seven of `Coq.ssr.ssrunder.Under_rel`; these come with the ssreflect plugin of the standard distribution,
  which `lia`-related modules load; no theorem depends on them.)
- The standard library only: Lists, Arith, NArith, ZArith, Strings, Sorting, Floats' SpecFloat
  (executable specification of rounding, C25), ring and lia.
- The transcription of the C++ code into Gallina.  The kernels of C55/C76 and the table of C77 were transcribed by
  scripts and compared by eye with the sources; everything else by hand.  Line numbers refer to the pinned commit.
- The reading of C++ as described in the header comment of each model file.

## What is modelled

| model | code |
|---|---|
| LayoutModel | lib/qdp_layout.cc, qdp_scalar_layout.cc, qdp_parscalar_layout.cc, lib/qdp_util.cc (crtesn, local_site) |
| SetModel | lib/qdp_scalarsite_specific.cc, lib/qdp_subset.cc, include/qdp_subset.h |
| MapModel | lib/qdp_map.cc, Map::make and operator() of both architectures, ArrayMap, nearest neighbours |
| EvalModel | include/qdp_dispatch.h, site loops, sums, global sums, lib/qdp_parscalar_global_sum.cc |
| RngModel | include/qdp_primseed.h, lib/qdp_random.cc, lib/qdp_rannyu.cc, random() |
| CrcModel, IoModel | lib/qdp_crc32.cc, qdp_byteorder.cc, lib/qdp_io.cc (binary part), include/qdp_io.h |
| LatIoModel | lattice read/write, time slices, subsets, peek/poke/extract/insert of both architectures, qdp_disk_map_slice.h |
| MapObjModel | include/qdp_map_obj*.h, lib/qdp_map_obj_disk.cc |
| NerscModel, NerscHeader | lib/qdp_iogauge.cc (the plaquette is PlaqModel), computeChecksum/readArchiv/writeArchiv |
| MultiModel | include/qdp_multi.h |
| AllocModel | lib/qdp_default_allocator.cc, qdp_pool_allocator.cc, OLattice memory |
| GammaModel, ColorModel, ComplexModel, TensorModel, ExprModel, ClassModel | include/qdp_prim*.h, qdp_reality.h, qdp_optops.h, isnan etc. |
| Kern*, FuseModel, FuseTable, HalfModel, NormModel | include/scalarsite_generic/ |
| SubModel | include/qdp_outersubtype.h, qdp_qdpsubtype.h, qdp_globalfuncs_subtype.h; qdp_qdptype.h 374-391; subset pokes of qdp_newops.h |
| IoNodeModel | lib/qdp_qdpio.cc 40-107 (I/O nodes), I/O grid of qdp_parscalar_layout.cc and qdp_scalar_layout.cc |
| QioModel | include/qdp_qdpio.h 800-1560 (site factories, read, write), binary buffers of lib/qdp_qdpio.cc; QIO itself as a contract |
| Hdf5Model | lib/qdp_hdf5.cc 279-299, 808-1392, 2152-2684, include/qdp_hdf5.h 90-125, 649-881, 1354-1469 (lattice objects); HDF5 itself as a contract |
| H5DirModel | lib/qdp_hdf5.cc 77-153, 198-250, 430-763, 1597-2122, 2634-2684, include/qdp_hdf5.h 156-462, 564-641, 984-1222, 1327-1351 (groups, names, datasets, attributes); HDF5 itself as a contract |
| XmlModel | lib/qdp_xmlio.cc (XMLReader, XMLWriter, array and vector primitives), include/qdp_xmlio.h 100-700 (containers), include/qdp_primseed.h, qdp_reality.h, qdp_map_obj_memory.h (read/write); XMLSimpleWriter, BasicXPathReader and libxml2 as a contract |
| XmlNodesModel | lib/qdp_xmlio.cc 96-260, include/qdp_xmlio.h 200-480 as programs, include/qdp_parscalar_specific.h 220-243, lib/qdp_parscalar_specific.cc 253-285 (broadcast) |
| StartModel | lib/qdp_parscalar_init.cc 39-363, lib/qdp_scalar_init.cc 26-172 (command line, start, stop), lib/qdp_util.cc 92-112; not the options of USE_REMOTE_QIO, threads, QMP |
| RealTextModel | lib/qdp_xmlio.cc 311-355, 425-461, 525-542, 919-1006, 1052-1139, 1188-1281; lib/qdp_stdio.cc 233-256; lib/qdp_io.cc 406-426 (precision and loops; the conversions of the C++ library as correct rounding) |
| ArrWriteModel | lib/qdp_xmlio.cc 636-660, 749-752, 1393-1521; include/qdp_xmlio.h 1115-1181 (XMLSimpleWriter at its contract; a second outermost tag of one writer is left open) |
| TextModel | lib/qdp_io.cc 15-517, 964-1008, 1393-1445 (open, close); lib/qdp_stdio.cc 28-126, 172-228, 276-296; include/qdp_reality.h 204-219, 410-425; include/qdp_primvector.h 179-199; include/qdp_primspinvec.h 147-170; include/qdp_primmatrix.h 166-190; include/qdp_primseed.h 147-168; include/qdp_outer.h 165-190; lib/qdp_xmlio.cc 1318-1392 |
| StaticModel | include/qdp_qdpio.h 156-305 |
| TimerModel | lib/qdp_stopwatch.cc 14-126; lib/qdp_profile.cc 20-30, 86-217; include/qdp_profile.h 54-155; include/qdp_scalar_specific.h 158-184 and the like |
| OperModel | include/QDPOperators.h 555-7650 (all functions); include/PETE/OperatorTags.h 40-779; include/PETE/ForEach.h 84-180 |
| WrapModel | include/qdp_primscalar.h 56-1590 (functions of PScalars, assignments); include/qdp_reality.h 59-155, 850-2530 (RScalars with real results); include/qdp_simpleword.h 56-478 (all but casts) |
| DbModel | include/qdp_db_imp.h 26-456 (all of BinaryStoreDB) |
| H5FileModel | lib/qdp_hdf5.cc 23-69, 77-95, 198-276, 1453-1594, include/qdp_hdf5.h 41-79, 478-490, 954-1030, 1224-1256 (opening and closing); HDF5 itself as a contract |
| NerscModel (readers) | lib/qdp_io.cc 524-533, 714-731, lib/qdp_scalar_specific.cc 155-249, lib/qdp_parscalar_specific.cc 1003-1062, lib/qdp_iogauge.cc 498-530 (C98) |
| SseMachine, SseKernels, SseEval | lib/scalarsite_sse/sse_linalg_m_*_double.cc, sse_blas_*_double.cc (all kernels, SSE2 and SSE3 variants; SseKernels.v is the translation of the statements one by one), lib/scalarsite_sse/qdp_scalarsite_linalg_double.cc 18-920 (all), include/scalarsite_sse/qdp_scalarsite_sse_linalg_double.h 42-300 (C99) |
| SseBlas | include/scalarsite_sse/qdp_scalarsite_sse_blas_double.h 60-3033 (all), include/scalarsite_sse/qdp_scalarsite_sse_blas_double_wrapper.h (all) (C100) |
| QioFileModel | lib/qdp_qdpio.cc 104-288, 292-570 (open, close and status of readers and writers), include/qdp_qdpio.h 320-418, 560-720 (C101) |
| Sse4Machine, Sse4Kernels, Sse4Eval | lib/scalarsite_sse/qdp_scalarsite_sse.cc 591-760, 1163-1747 (all but the products), include/scalarsite_sse/qdp_scalarsite_sse_blas.h (all), include/scalarsite_sse/qdp_scalarsite_sse_blas_wrapper.h (all); Sse4Kernels.v is the translation of the statements one by one (C102) |
| SseSpinMachine, SseSpinKernels | include/scalarsite_sse/sse_spin_proj_inlines.h (all), include/scalarsite_sse/sse_spin_recon_inlines.h (all) without prefetches and debug output; SseSpinKernels.v is the translation of the statements one by one (C103) |
| SingletonModel | include/qdp_singleton.h 174-294, 339-457 without SingletonWithLongevity and without threads (C104) |
| LatXmlModel | include/qdp_scalar_specific.h 2055-2083, include/qdp_parscalar_specific.h 2497-2550, include/qdp_primvector.h 205-224, include/qdp_primspinvec.h 173-192, include/qdp_primmatrix.h 194-216, include/qdp_primseed.h 173-187, include/qdp_reality.h 224-227, 430-440, include/qdp_primscalar.h 220-223, include/qdp_outer.h 208-211 (C105) |
| PlaqModel, PlaqArchive | lib/qdp_iogauge.cc 33-63, and its calls in 492-526 and 689-730 (C106) |

## What is not modelled

- Floating-point rounding, except in C25 (conversion of seeds to float) and C89 (numbers as text); everywhere else numbers are a
  commutative ring, a commutative monoid or an arbitrary type, as stated in the theorem.
- Weak memory; threads interleave atomically per read and write of a site.
- MPI/QMP/QIO themselves (messages deliver what was sent; unmatched ones are `Undef`), C++ exceptions other than
  as `Abort`, failing memory allocation except in C50/C71.
- 32-bit overflow of site numbers: coordinates and site numbers are natural numbers.  `LayoutInt.v` shows that
  the arithmetic of the site numbering does not overflow as long as the volume fits an int.
- The vectorised architectures (scalarvec, parscalarvec: every assignment, mask or fill on a subset ends in QDP_error_exit "not implemented" there, and since assignments to whole fields go through the subset of all sites, setting up the random number generator in Layout::create ends the program on every lattice: include/qdp_scalarvec_specific.h 58-130, lib/qdp_random.cc 84-125; the layouts are those of the other builds plus a check that the volume divides by the vector length), SSE kernels for products with gamma_5 (include/scalarsite_sse/sse_blas_*_g5.h: included nowhere, and of a type v4sf defined nowhere) and for products of single precision colour matrices, Bagel and pab assembler kernels,
  QIO checksums and user XML, the options of USE_REMOTE_QIO, thread binding.
- Overload resolution and template instantiation of C++ (the model says which function is called).

## Findings

Properties that do not hold of the code, each with a `_refuted` theorem (see the notes in MANIFEST.json):
- **C09** The property as stated is FALSE of the code: the copied subsets keep pointing at the source tables (two witness histories). Proved instead: the copy is correct as long as neither object is modified later. (C09_copy_independent_refuted)
- **C16** The property is FALSE of the code: whenever sites*threads exceeds 2^31-1 the last thread multiplies with signed overflow. Proved: exact bounds below that. (C16_dispatch_overflow_refuted)
- **C21** Lattices below 2^30 sites. For 2^30 or more sites (e.g. 128^3 x 512) the initialisation overflows a signed int. (C21_large_lattice_refuted)
- **C25** The property is FALSE in floating point: the number rounds to exactly 1 for the topmost seeds, and such a seed is reached from the default seed. True in exact arithmetic. (C25_single_precision_refuted, C25_double_precision_refuted)
- **C26** The property is FALSE if a node owns no site of the subset; proved otherwise. (C26_empty_node_refuted)
- **C27** The property is FALSE in the single-process architecture with more threads than sites; proved when every thread has an iteration. (C27_uninitialised_refuted)
- **C28** The property is FALSE: number 306 from the default seed exceeds 1. Proved instead: no overflow, low 36 bits follow the recurrence, numbers below 4396/4096. (C28_not_the_documented_generator_refuted)
- **C29** The property is FALSE before the first number; proved after it. (C29_setrn_ignored_refuted)
- **C30** Proved for word counts below 2^32. FALSE above: the unsigned int loop counter wraps and the loop never ends. (C30_large_count_refuted)
- **C34** The property is FALSE for strings with a newline, a NUL or maxBytes or more characters; exact condition proved. writeDesc/readDesc round-trip every string. (C34_newline_refuted)
- **C36** FALSE of the code: 3-d checkerboard builds write with time fastest, so files are permuted when exchanged with other builds; with time distributed over nodes they do not even read their own files (witness). Positive: the exact order, and own files when runs of sites stay on one node. (C36_other_files_refuted, C36_own_files_elsewhere_refuted, C36_crossing_nodes_refuted)
- **C37** All layouts except 3-d checkerboard, where time slices are wrong (witness C37_time_slice_3d_refuted). Multi-node time slices need at least two dimensions. (C37_time_slice_3d_refuted)
- **C40** FALSE of the code in general: a new key after a get or update overwrites the next record (general theorem), a longer update overruns it (witness). C40_sessions proves the property for all histories satisfying the exact side conditions, over any number of sessions and machines. (C40_new_key_after_get_refuted, C40_longer_update_refuted)
- **C42** Proved for crashes in insert and in the key map of flush when only new keys were inserted since the last flush. FALSE when the header itself is cut short (uninitialised read, general theorem) and for a torn in-place update (checksum collision witness). A crash inside the 16-byte link write is not covered. (C42_truncated_header_refuted, C42_torn_update_refuted)
- **C45** FALSE as stated. Proved: exactly what is read back. Lattice size, checksum and sequence number survive; the format is always written as 2 rows in 32 bits, so three-row archives cannot be read back; boundary conditions are written as text and never parsed, the variable of the reader keeps its old value; leading blanks of texts are dropped; a line of 128 characters or more (e.g. a long host description) makes the archive unreadable; the checksum in the XML form is written in hexadecimal and read as decimal. (C45_repeated_size_refuted, C45_three_rows_refuted, C45_long_line_refuted, C45_xml_checksum_refuted)
- **C46** The comparison operators are the lexicographic order for arrays with at least one element; FALSE for empty arrays, which do not equal themselves (and so for arrays containing empty arrays). (C46_empty_refuted)
- **C48** Indexing with an array of indices proved; FALSE for a(i,j), a(i,j,k), a(i,j,k,l), which agree with it only for the shapes stated. (C48_refuted)
- **C49** Proved for every program without self-assignment of arrays of rank 2 and more; FALSE with it (the elements are lost). Copying a default-constructed multiNd is undefined behaviour. (C49_self_assignment_refuted, C49_multiNd_refuted)
- **C50** Default allocator proved for power-of-two alignments and sizes below 2^64-A; FALSE otherwise. The pool allocator does not notice unknown pointers and returns null on its first failure. (C50_alignment_refuted, C50_size_refuted, C50_pool_unknown_refuted)
- **C52** All products in both bases. FALSE only in that the run-time form Gamma(m) accepts any int and is undefined outside 0..15. (C52_runtime_refuted)
- **C54** Proved; the documented formula for quarkContract24 is not what is computed (and is a copy of the one for quarkContract14). (C54_documented24_refuted)
- **C56** The property is FALSE for one and two dimensions (every non-empty lattice aborts); for three or more dimensions C08_default_sets shows initDefaultSets succeeds. (C56_low_dimensions_refuted)
- **C57** The property is FALSE in the single-process architecture (witness run); the multi-node shift builds a temporary and is covered by C13. (C57_shift_in_place_refuted)
- **C59** The property is FALSE for buffers constructed from a string: the checksum is uninitialised. Proved for all others. (C59_buffer_checksum_refuted)
- **C60** Proved for files. FALSE for buffers: seek moves only the reading position. (C60_buffer_seek_ignored_refuted, C60_buffer_witness_refuted)
- **C61** The property is FALSE: clear() keeps the contents and positions. (C61_clear_keeps_contents_refuted)
- **C62** FALSE of the code: the clear-to-send message is four bytes long and is received into the data buffer, which is shorter for one-byte elements. The positive theorems give the exact condition (site_room, strip_room). (C62_small_site_refuted)
- **C63** A compact array of numSiteTable() elements is overrun. (C63_compact_array_refuted)
- **C64** FALSE where integer division by zero traps (x86). True where it delivers zero (ARM). (C64_division_traps_refuted, C64_default_mode_refuted)
- **C65** FALSE for a reused object; proved for a new one. (C65_object_reuse_refuted)
- **C66** FALSE of the code for files opened read-only. (C66_read_only_insert_refuted)
- **C67** get, exist, keys and user data proved; FALSE for fileExists before open, and a second close is undefined behaviour. (C67_file_exists_refuted, C67_second_close_refuted)
- **C68** FALSE of the code when the scalar is an element of the array that is not its last; C49_values covers every other scalar. (C68_scalar_operand_refuted)
- **C69** Proved for rows of a multi2d (statement SRow of C49_values); FALSE for higher ranks, which always abort. (C69_part_refuted)
- **C70** FALSE for an empty array (undefined behaviour). (C70_empty_refuted)
- **C71** Proved for the default allocator; FALSE for the pool, where a lattice without memory is constructed. (C71_pool_refuted)
- **C73** FALSE for imagTrace of real objects, which is their trace instead of zero. Exact arithmetic. (C73_imagTrace_refuted)
- **C75** FALSE for isnormal of matrices, which calls isinf, and on several nodes, where a one-byte flag is combined as a four-byte word (out of bounds). Proved otherwise. (C75_isnormal_refuted, C75_nodes_refuted, C75_overwrite_refuted)
- **C76** Proved for 31 vector kernels; FALSE for seven g5ProjPlus kernels, which load one or two reals behind the last site. (C76_over_read_refuted)
- **C77** All 83 specialisations; the seven g5ProjPlus forms need one or two readable reals behind the operand (slack), which C77_exact_arrays_refuted shows to be necessary. Exact arithmetic; thread calls run in any order, not interleaved. (C77_exact_arrays_refuted)
- **C78** FALSE in place: h = u*h with u = 1 turns (a,b,c) into (a,0,0). Proved when the destination is another field. (C78_in_place_refuted)
- **C80** Arrays of different lengths are not rejected: a longer second array is cut off, a shorter one is read behind its end. (C80_array_lengths_refuted)
- **C81** FALSE: sum(a[s]) adds the first numSiteTable() sites in memory instead of those of s; x = y for different subsets of equal size moves values to other sites without complaint; a[s] = b[s] stops the program; pokeColor/pokeSpin into a sub-lattice with its own memory write outside it; assignments to scalar[s] read an uninitialised member. (C81_sum_view_refuted, C81_other_subset_refuted, C81_view_assign_refuted, C81_poke_owner_refuted, C81_scalar_refuted)
- **C82** FALSE: fewer I/O nodes than asked for may be used; an I/O grid with a zero extent is accepted and leads to division by zero. (C82_count_refuted, C82_zero_extent_refuted)
- **C83** FALSE for records that do not fit: integers are read as floats and the reverse; an array of n lattices read into one lattice of as many bytes per site overruns the buffer. The sites outside a hypercube record become zero for floating point records and are left alone for others. (C83_kinds_refuted, C83_array_as_lattice_refuted, C83_hypercube)
- **C84** FALSE for fields of one word per site (LatticeReal: written with Nd extents, read with Nd+1, aborts), LatticeColorMatrixF3 (no reader takes its type), integers in double-precision builds (HDF5 reads an empty buffer), fields of the other precision than REAL (doubles in a float build come back as something that does not depend on half of the field; floats in a double build are read out of bounds), nodes whose part is more than 2 GB and whose last extent is not divisible by the number of parts (the last rows are never written), datasets with fewer words than the object (size check commented out), arrays of one colour matrix, writeQlua followed by readQlua (coordinates reversed or refused) and 3-d checkerboard builds (sites permuted in the file). (C84_*_refuted)
- **C85** FALSE in many corners: cd(".") or cd to the working group by another spelling loops forever; writeAttribute("/",...) indexes an empty list; reading one number from a longer array overruns; strings are cut at zero bytes; numbers and strings written into a missing group vanish silently; ColorMatrix written with its own type is unreadable; small objects, empty arrays of objects and objects of the other precision are undefined; push("..") makes a group; push through a dataset stops silently; over-long attributes destroy the old one or vanish; writeQlua on "a/b" changes the working group, with truncation deletes all of the group.
- **C86** FALSE in corners: reading a std::list of anything but numbers always gives an empty list (the loop runs to the size of the list just cleared, qdp_xmlio.h 367-370); a number list ending in a lone sign or an out-of-range number loses that tail silently, lists of numbers are silently cut at the first bad word; "-1" is read by unsigned types as 2^b-1; "1-2" reads as two numbers; a seed of fewer than four elements is read out of bounds; reading into a std::map keeps the old entries.
- **C87** FALSE when a query fails: XMLReader throws on the primary node before it broadcasts, so the other nodes wait; a program that catches the exception and takes a default leaves them one value behind (the next number read is taken for the missing one) or in a broadcast of another size. Asking count() first is safe, and so are lists of numbers.
- **C88** FALSE for lines that are not in order: "-geom 2 2" in four dimensions, "-p", "-poolsize" or "-bind" at the end pass the null pointer at the end of argv to sscanf before the check "missing argument at the end" is reached, so that its message can never appear; "-geom 2 x 2 2" uses an uninitialised int; "-poolsize much" is accepted in silence with the size unchanged. FALSE in the build for one node: QDP_finalize keeps the pointers it has deleted, so a second QDP_finalize, or QDP_abort or any QDP_error_exit after QDP_finalize, deletes them again.
- **C89** FALSE that what is written can be read: 15 (double) and 7 (float) digits do not tell neighbours apart (17 and 9 would); float needs 6 digits or 9 for stable copies, with the 7 digits used 1.00000006e28 becomes 1e+28, then 9.999999e+27; the largest double becomes 1.79769313486232e+308, which is out of range: dropped silently at the end of an array, an exception elsewhere; "inf" and "nan" are written and cannot be read, and in a std::list they cut the rest off without a word.
- **C90** FALSE for arrays without elements: pop(XMLArrayWriter&) ends the program ("calling closeArray but not initialized") whatever the announced size, and the destructor leaves the tag open; write(xml_array, name, x) of a number, string or array between push(xml_array, name) and pop is not counted as an element and ends the program at pop; an exception inside an element ends the program in the destructor; XMLArrayWriter::close() is documented and declared but defined nowhere; announced sizes of 0 are not checked.
- **C91** FALSE that scalars written as text can be read: TextWriter& operator<< of RComplex, PVector, PSpinVector and PMatrix puts nothing between the parts (seeds are written line by line and do come back); operator<<(TextWriter&, char) is declared (include/qdp_io.h 254) and defined nowhere; TextBufferReader::open does not clear eofbit; TextBufferWriter(s) overwrites s; TextFileWriter::open, BinaryFileWriter::open and the readers check is_open() instead of fail(), so that opening a second file without closing the first passes the check and all later output is lost (XMLFileWriter::open checks fail() and ends the program).
- **C92** NumSpins and NumColors (include/qdp_qdpio.h 156-305) are non-constant static members of templates set from each other: their initialisation is unordered, and in some orders gauge fields are recorded with 0 spins and spin matrices with 0 colours.
- **C93** popProfileInfo (lib/qdp_profile.cc 183-195) sets the level of the section being left instead of the one returned to, and registerProfile uses the section opened last, open or not; StopWatch::stop adds uninitialised values after gettimeofday fails (lib/qdp_stopwatch.cc 25-29, 100-108) and can count negative intervals; SetLevel and Print histories: printProfile empties the queue, after which registerProfile aborts.
- **C94** where(mask, 5, 7) gives 1 everywhere: plain numbers are converted to the word type of the first operand, here bool (include/QDPOperators.h, TrinaryNode functions with WordType<C1>); where(a < b, c + d, 0), where(a < b, 0, c + d) and where(1, a, b) have no overload.
- **C95** norm2 and innerProduct of single precision fields multiply in single precision before converting to double: double(s1*s1) (include/qdp_simpleword.h 415-427), so the norm of 4097 is 16785408; imagTrace(RScalar) returns its argument (include/qdp_reality.h 1186-1189); where(mask, LatticeRealF, LatticeRealD) and innerProduct(LatticeInteger, LatticeReal) are ambiguous; zero_rep and copymask have no bool version; PScalar has no fmod, ldexp, operator~ or transposeColor although expressions accept them.
- **C96** BinaryStoreDB: get, getBinary, keys and keysAndData end the program unless it runs on one node (include/qdp_db_imp.h 300-357), and binaryKeysAndData has value parameters (366-367): it never returns anything.
- **C97** HDF5::close closes the groups of other objects that have the same file open (lib/qdp_hdf5.cc 258-268, no H5F_OBJ_LOCAL) and leaves current_group dangling; objects can be copied and assigned although they own identifiers; HDF5_error_exit saves only its own file.
- **C98** The multi-node readArchiv does not test cfg_in.fail() (lib/qdp_parscalar_specific.cc 1033; the single-process one does, lib/qdp_scalar_specific.cc 179): cut files go on with the contents of recv_buf; the checksum (a sum of words) does not notice reordering.
- **C99** FALSE when d is the right operand, or the left one under an adjoint: evaluate passes the pointers to kernels that store the result while they still need the operands (lib/scalarsite_sse/qdp_scalarsite_linalg_double.cc 78-256, 318-497, 734-920), so u = v*u is wrong in SSE builds. (C99_aliased_refuted)
- **C100** FALSE for norm2 and innerProduct over an ordered subset with fewer sites than threads: the stale results of idle threads are added (include/scalarsite_sse/qdp_scalarsite_sse_blas_double.h 2576-2579, 2676-2681, 2745-2750 with include/qdp_dispatch.h 41). (C100_idle_threads_refuted)
- **C101** FALSE of programs that are not careful: open() of an open object leaks its file (lib/qdp_qdpio.cc 154, 463), eof() is always false (195), bad() is uninitialised in a new object (106, 294) and true after close (190, 496), closed objects are used (221-288, 528-561), the status of closing is ignored (186, 492), implicit copies close twice. (C101_reopen_refuted, C101_eof_refuted, C101_bad_refuted, C101_closed_refuted, C101_close_refuted, C101_copy_refuted)
- **C102** FALSE for d = l, d += l, d -= l of single precision colour matrix fields on ordered subsets that begin at an odd site: _mm_load_ps and _mm_store_ps at an address that is not a multiple of 16 (lib/scalarsite_sse/qdp_scalarsite_sse.cc 620-622, 677-680, 735-738); FALSE for norm2 over an ordered subset with fewer sites than threads as in C100 (include/scalarsite_sse/qdp_scalarsite_sse_blas.h 2222-2225). (C102_copy_refuted, C102_idle_threads_refuted)
- **C103** FALSE for n_vec = 0: the loops run to n_vec-1, which is 2^32-1 then (include/scalarsite_sse/sse_spin_proj_inlines.h 60 and the 23 other loops). (C103_empty_refuted)
- **C104** FALSE: a destructor that uses a DefaultLifetime singleton first made later gets logic_error during exit (include/qdp_singleton.h 256-257, 436-440), which terminates the program; a PhoenixSingleton made anew during exit is never destroyed without ATEXIT_FIXED (271-277). SingletonWithLongevity cannot be used: pTrackerArray, elements and AtExitFn (94-96, 125) are defined nowhere, and realloc is given a number of elements instead of bytes. (C104_dead_reference_refuted, C104_phoenix_refuted)
- **C105** FALSE of 3-d checkerboard builds: crtesn (lib/qdp_layout.cc 71-95) counts time fastest there, so that the attribute site of the XML of a field is not the lexicographic number and documents differ from those of other builds. (C105_cb3d_refuted)
- **C106** FALSE of large lattices: double(Layout::vol()*Nd*(Nd-1)*Nc) (lib/qdp_iogauge.cc 56) multiplies in int; with Nd = 4 and Nc = 3 it overflows from 59,652,324 sites on, e.g. 64^3 x 256. (C106_large_refuted)

Other observations made while transcribing (no theorem):

- isnormal(PMatrix) calls isinf (qdp_primmatrix.h 804-814; theorem under C75).
- globalAnd/globalOr combine a one-byte bool as a four-byte unsigned int (qdp_parscalar_specific.h 195-219; C75).
- localInnerProductReal(PMatrix, PScalar) (qdp_primmatrix.h 1738), multiplyAdj(PScalar, PSpinVector) (qdp_primspinvec.h 451),
  where() on mixed RScalar/RComplex, and sum(traceColor(a*b)) do not compile when instantiated.
- traceColorMultiply/traceSpinMultiply of two PScalars call traceMultiply.
- vaxpy3_norm and vaxmby3_norm process 6 reals per unit of n where their siblings process 24; they and vadd/vsub are never called.
- ordered_spin_project_evaluate_function ignores its lower bound (dead code); the spin_project evaluates have template
  parameters that cannot be deduced, and an unterminated comment swallows part of Dir2Plus (dead code).
- The archive reader compares DIMENSION_i entries by count only (C45_repeated_size_refuted); a comment claims that 0 is written as
  checksum, which is not so.
- random, gaussian, copymask, read and write of an OSubLattice call a member field() that the class does not have (they do not
  compile when instantiated).
- The documentation gives quarkContract24 the formula of quarkContract14 (C54).

## Tests of the theorems

`seeded/LOG.jsonl` records, for each deliberate bug put into a scratch copy of the model, which theorems stopped holding and
which were tightened because they did not.
