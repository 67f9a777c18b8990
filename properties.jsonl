{"id": "C01", "title": "Lexicographic numbering is a bijection", "statement": "Decomposing a lexicographic site number into coordinates and composing coordinates back into a site number are mutually inverse on a lattice of any dimension and any positive extents, in the ordinary (first coordinate fastest) and in the 3-d-checkerboard build (last coordinate fastest); every number below the volume gives in-range coordinates and every in-range coordinate vector a number below the volume.", "quantifier": "every number of dimensions, every vector of positive extents, every site", "why_tests_cant": "the number of lattice shapes is unbounded; tests visit a handful of shapes", "anchors": ["lib/qdp_layout.cc: crtesn, local_site"]}
{"id": "C02", "title": "Single-process layouts are bijections", "statement": "For each single-process layout (lexicographic, 2-checkerboard, 3-d checkerboard, 32-style checkerboard) Layout::siteCoords and Layout::linearSiteIndex are mutually inverse between [0,vol) and the lattice, for every lattice whose extents meet the layout's divisibility requirement, so the self-check run by Layout::create never aborts on such a lattice.", "quantifier": "every dimension, every admissible lattice size, every linear index and every coordinate", "why_tests_cant": "an unbounded family of lattice shapes; create() only checks the shape of the current run", "anchors": ["lib/qdp_scalar_layout.cc: linearSiteIndex, siteCoords, create"]}
{"id": "C03", "title": "Checkerboarded layouts store whole checkerboards contiguously", "statement": "In the 2-checkerboard layout the first half of the linear indices are exactly the even sites and the second half exactly the odd sites (in the 3-d layout: even/odd in the first Nd-1 coordinates; in the 32-style layout: each block of vol/2^(Nd+1) consecutive indices is exactly one of the 32-style colours), on one process and on every node of a parallel machine.", "quantifier": "every admissible lattice and node grid, every site", "why_tests_cant": "must hold for all shapes and node grids", "anchors": ["lib/qdp_scalar_layout.cc: siteCoords, linearSiteIndex", "lib/qdp_parscalar_layout.cc: siteCoords, linearSiteIndex", "lib/qdp_subset.cc: SetRBFunc, SetRB3Func, Set32CBFunc"]}
{"id": "C04", "title": "Multi-node layouts are bijections onto (node, index) pairs", "statement": "For each multi-node layout (lexicographic, 2-checkerboard, 3-d checkerboard) the pair (Layout::nodeNumber(x), Layout::linearSiteIndex(x)) determines x, Layout::siteCoords inverts it, and every pair (node, index below sitesOnNode) is hit, provided the machine's node numbering is a bijection onto the logical grid; hence no two sites share storage and no storage is unused.", "quantifier": "every dimension, lattice, node grid that divides it admissibly, every site and node", "why_tests_cant": "unbounded family of lattices and machine shapes; needs a parallel machine to test at all", "anchors": ["lib/qdp_parscalar_layout.cc: linearSiteIndex, nodeNumber, siteCoords, create"]}
{"id": "C05", "title": "Inadmissible extents are really inadmissible", "statement": "If the first extent of a 2-checkerboard lattice is odd the layout maps are not inverse, and Layout::create detects it: the self-check fails for every such lattice with nonzero volume, so the program aborts instead of running on a corrupt layout.", "quantifier": "every lattice with odd first extent", "why_tests_cant": "universally quantified over lattice sizes", "anchors": ["lib/qdp_scalar_layout.cc: create, siteCoords, linearSiteIndex"]}
{"id": "C06", "title": "Set::make partitions the sites", "statement": "After building a Set from a colouring function, every local site is in exactly one subset's site table, namely that of its colour; each table is strictly ascending, contains only valid local sites, and the sizes add up to the number of local sites; a colouring function that returns an out-of-range colour makes construction abort.", "quantifier": "every layout with a coordinate bijection, every colouring function, every number of subsets", "why_tests_cant": "all colouring functions, all layouts", "anchors": ["lib/qdp_scalarsite_specific.cc: Set::make"]}
{"id": "C07", "title": "Ordered-representation flags are exact", "statement": "A subset is flagged as having an ordered representation exactly when its site table is a non-empty run of consecutive indices, and then start() and end() are its first and last index, so iterating from start to end visits exactly the table; an empty subset is never flagged ordered.", "quantifier": "every colouring and layout", "why_tests_cant": "all colouring functions, all layouts", "anchors": ["lib/qdp_scalarsite_specific.cc: Set::make", "include/qdp_subset.h: Subset"]}
{"id": "C08", "title": "Predefined subsets have the documented membership", "statement": "rb[0]/rb[1] hold exactly the sites of even/odd coordinate sum, rb3 those of even/odd sum of the first three coordinates, mcb the 32-style colours and all every site; the colouring functions always return a colour below the declared number of subsets; when all extents are even a nearest-neighbour shift maps even to odd and odd to even.", "quantifier": "every lattice and site", "why_tests_cant": "all lattice sizes", "anchors": ["lib/qdp_subset.cc: SetAllFunc, SetRBFunc, SetRB3Func, Set32CBFunc"]}
{"id": "C09", "title": "Copying a Set gives an independent Set", "statement": "After copying one Set object to another, the copy's subsets remain valid and unchanged whatever later happens to the source (rebuilt or destroyed).", "quantifier": "every history of make/copy/destroy operations", "why_tests_cant": "lifetime property over all histories; undefined behaviour need not show in a test", "anchors": ["include/qdp_subset.h: Set::operator=, Subset", "lib/qdp_subset.cc"]}
{"id": "C10", "title": "A single-process map gathers from the mapped site", "statement": "For every map function, applying the Map built from it yields at each site x the source value at func(x, +1); for a BiDirectionalMap sign -1 uses func(x,-1) and sign +1 uses func(x,+1), for array maps additionally with the requested direction.", "quantifier": "every layout bijection, map function, field and site", "why_tests_cant": "all map functions and fields", "anchors": ["lib/qdp_scalar_specific.cc: Map::make", "lib/qdp_map.cc: ArrayMap::make, BiDirectionalMap::make, ArrayBiDirectionalMap::make", "include/qdp_scalar_specific.h: Map, BiDirectionalMap"]}
{"id": "C11", "title": "Forward and backward shifts are inverse permutations", "statement": "The nearest-neighbour shift in any direction is a permutation of the sites; shifting forward and then backward (or the reverse) returns the original field, shifts in different directions commute, and shifting nrow[mu] times in direction mu is the identity.", "quantifier": "every lattice size, direction and field", "why_tests_cant": "all lattice shapes and fields", "anchors": ["lib/qdp_map.cc: NearestNeighborMapFunc::operator(), shift", "include/qdp_map.h"]}
{"id": "C12", "title": "A multi-node map equals the single-process map", "statement": "When a multi-node Map is built for a permutation that needs at most one source and one destination node per node, applying it (pack face, exchange message, unpack) delivers to every site x of every node the value of the source field at func(x), exactly as on one process, whatever the layout and node grid.", "quantifier": "every layout, node grid, permutation of the sites meeting the restriction, field, site", "why_tests_cant": "needs all machine shapes and permutations; ordering errors of send and receive buffers appear only for particular shapes", "anchors": ["lib/qdp_parscalar_specific.cc: Map::make", "include/qdp_parscalar_specific.h: Map::operator()"]}
{"id": "C13", "title": "Multi-node maps exist for every nearest-neighbour shift", "statement": "Building the nearest-neighbour shift maps never hits one of Map::make's abort paths (send/receive count mismatch, more than one neighbour) on any lattice and node grid of the lexicographic and 2-checkerboard layouts.", "quantifier": "every lattice, node grid, direction and sign", "why_tests_cant": "all machine shapes", "anchors": ["lib/qdp_parscalar_specific.cc: Map::make", "lib/qdp_map.cc: NearestNeighborMapFunc"]}
{"id": "C14", "title": "Threaded evaluation covers each site exactly once", "statement": "Dispatching a site loop over threads assigns every table index in [0,n) to exactly one thread for every positive thread count, whether n is smaller than, equal to or larger than the number of threads.", "quantifier": "every n and every number of threads", "why_tests_cant": "all combinations of sizes and thread counts", "anchors": ["include/qdp_dispatch.h: dispatch_to_threads"]}
{"id": "C15", "title": "Data-parallel assignment is independent of threads and touches only its subset", "statement": "An assignment dest[s] = expr whose right-hand side does not read dest produces, for every thread count and every interleaving of the threads, the expression value at each site of s and leaves all other sites of dest unchanged.", "quantifier": "every field, subset, expression, thread count and interleaving", "why_tests_cant": "interleavings cannot be enumerated by testing", "anchors": ["include/qdp_scalar_specific.h: evaluate, evaluate_userfunc", "include/qdp_dispatch.h"]}
{"id": "C16", "title": "Thread dispatch never overflows", "statement": "The per-thread bounds computed by the dispatcher are correct in the machine's 32-bit int arithmetic for every number of sites and threads an int can hold.", "quantifier": "every 32-bit site count and thread count", "why_tests_cant": "needs lattices of more than 2^31/threads sites", "anchors": ["include/qdp_dispatch.h: dispatch_to_threads"]}
{"id": "C17", "title": "Global sums do not depend on the schedule", "statement": "sum(expr, subset) computed with per-thread partial sums merged in an arbitrary order equals the plain sum over the subset whenever addition is associative and commutative; sumMulti returns for each colour exactly the sum over that subset, so that its entries add up to the full sum; norm2 and innerProduct over arrays of fields are the corresponding double sums.", "quantifier": "every field, subset, Set, thread count, assignment of iterations to threads and merge order", "why_tests_cant": "schedules cannot be enumerated", "anchors": ["include/qdp_scalar_specific.h: sum, sumMulti, norm2, innerProduct"]}
{"id": "C18", "title": "The ring reduction gives bit-identical sums on all nodes", "statement": "The node-deterministic global sum delivers, along every machine direction, the same value on all nodes even for a non-associative addition, and that value is the sum of all contributions when addition is associative and commutative.", "quantifier": "every number of nodes, every machine shape, every data and every binary operation", "why_tests_cant": "floating-point association differences show only on particular machines and data", "anchors": ["lib/qdp_parscalar_global_sum.cc: sumTDirection, sumT"]}
{"id": "C19", "title": "globalMax and globalMin return an extremal element", "statement": "globalMax (globalMin) returns a value that occurs in the field and that no element exceeds (undercuts), on one process and when node-local results are combined by a max (min) reduction.", "quantifier": "every field and node partition", "why_tests_cant": "all fields", "anchors": ["include/qdp_scalar_specific.h: globalMax, globalMin", "include/qdp_parscalar_specific.h: globalMax"]}
{"id": "C20", "title": "Seed arithmetic is exact modulo 2^47", "statement": "Multiplying two random-number seeds yields the product of the 47-bit numbers they represent modulo 2^47, with every intermediate fitting 32-bit int; seed construction from int parts, shift, or and comparison agree with the 47-bit number as well.", "quantifier": "every pair of seeds with in-range limbs", "why_tests_cant": "2^94 pairs", "anchors": ["include/qdp_primseed.h: operator*, operator|, operator<<, assign, operator==", "lib/qdp_random.cc"]}
{"id": "C21", "title": "Per-site multipliers are the right powers", "statement": "After initRNG the multiplier of the site with lexicographic number i is a^(i+1) and the global step multiplier is a^(vol+1), where a is the fundamental multiplier, for every layout, lattice and node grid.", "quantifier": "every lattice, layout, node and site", "why_tests_cant": "all lattice shapes", "anchors": ["lib/qdp_random.cc: initRNG, numbits"]}
{"id": "C22", "title": "Lattice random numbers do not depend on layout, node grid or threads", "statement": "For a given starting seed, the number random() delivers at lattice coordinate x in each successive lattice fill is the same for every layout, every node grid and every thread schedule (given each thread and each node owns at least one site).", "quantifier": "every layout, node grid, lattice, schedule and sequence of fills", "why_tests_cant": "all machine shapes and schedules", "anchors": ["include/qdp_scalar_specific.h: random", "include/qdp_parscalar_specific.h: random", "include/qdp_primseed.h"]}
{"id": "C23", "title": "Random streams of different sites and draws never coincide", "statement": "The multiplier has order exactly 2^45 modulo 2^47, so for an odd seed the seeds used at distinct (site, draw) pairs are pairwise distinct as long as fewer than 2^45 numbers have been drawn in total.", "quantifier": "every lattice, every pair of sites and draws", "why_tests_cant": "2^45 values", "anchors": ["lib/qdp_random.cc: initRNG, ran_mult", "include/qdp_primseed.h"]}
{"id": "C24", "title": "savern/setrn replay", "statement": "Saving the seed, drawing any sequence of numbers, restoring the seed and drawing the same sequence again gives the same numbers.", "quantifier": "every seed and every sequence of scalar and lattice draws", "why_tests_cant": "all histories", "anchors": ["lib/qdp_random.cc: RNG::setrn, RNG::savern", "include/qdp_scalar_specific.h: random"]}
{"id": "C25", "title": "Random numbers lie in [0,1)", "statement": "random() returns a value that is at least 0 and strictly below 1, in the exact arithmetic of the seed and in the working floating-point precision.", "quantifier": "every seed", "why_tests_cant": "2^47 seeds; only the topmost ones round up", "anchors": ["include/qdp_primseed.h: seedToFloat"]}
{"id": "C26", "title": "All nodes keep the same global seed", "statement": "After any sequence of random fills, whatever the subsets filled, all nodes hold the same global seed, so that later scalar random numbers agree on all nodes.", "quantifier": "every sequence of fills, subset, node grid", "why_tests_cant": "histories times machine shapes", "anchors": ["include/qdp_parscalar_specific.h: random(OLattice, Subset)"]}
{"id": "C27", "title": "The global seed is well defined after every threaded fill", "statement": "After a single-process threaded fill of a subset the global seed is the old seed times the step multiplier per drawn number, for every number of threads, site count and merge order.", "quantifier": "every thread count, subset size and schedule", "why_tests_cant": "depends on the number of sites against the number of threads and on the schedule", "anchors": ["include/qdp_scalar_specific.h: random(OLattice, Subset)"]}
{"id": "C28", "title": "The RANNYU generator is the documented congruential generator", "statement": "RANNYU::random() steps a 48-bit linear congruential generator (modulus 2^48) and returns its state divided by 2^48, a number in [0,1).", "quantifier": "every state", "why_tests_cant": "2^48 states", "anchors": ["lib/qdp_rannyu.cc: RANNYU::random"]}
{"id": "C29", "title": "RANNYU setrn is honoured", "statement": "After RANNYU::setrn(seed), the following numbers are those determined by seed, and savern after setrn returns that seed.", "quantifier": "every seed and call history", "why_tests_cant": "depends on the call history before setrn", "anchors": ["lib/qdp_rannyu.cc: setrn, savern, random"]}
{"id": "C30", "title": "Byte swapping is an involution that reverses each word", "statement": "byte_swap reverses the bytes of every word of a supported size, leaves the order of words alone, never touches bytes outside the buffer, and applying it twice restores the buffer; an unsupported size is refused.", "quantifier": "every buffer, word count and supported size", "why_tests_cant": "all buffers", "anchors": ["lib/qdp_byteorder.cc: byte_swap"]}
{"id": "C31", "title": "The checksum is the standard CRC-32 and composes", "statement": "QDPUtil::crc32 computes the reflected CRC-32 with polynomial 0xEDB88320 of the data, whatever the length (including the 8-fold unrolled path), and feeding data in pieces gives the same value as feeding it at once.", "quantifier": "every byte string, every way to cut it into pieces, every starting value", "why_tests_cant": "all byte strings", "anchors": ["lib/qdp_crc32.cc: crc32, crc_table"]}
{"id": "C32", "title": "The checksum detects every single corrupted word", "statement": "Two equally long byte strings that differ in a single byte, or only within one window of up to 32 consecutive bits, always have different checksums.", "quantifier": "every pair of strings", "why_tests_cant": "all strings and positions", "anchors": ["lib/qdp_crc32.cc: crc32"]}
{"id": "C33", "title": "Binary files round-trip and reader and writer checksums agree", "statement": "Any sequence of values written with a BinaryWriter is read back unchanged by the same sequence of reads with a BinaryReader, on machines of either endianness and across endianness, and after the same sequence both report the same checksum.", "quantifier": "every sequence of values of every supported word size, both endiannesses on both sides", "why_tests_cant": "all sequences; needs machines of both endianness", "anchors": ["lib/qdp_io.cc: BinaryWriter::writeArrayPrimaryNode, BinaryReader::readArrayPrimaryNode, writeDesc, readDesc"]}
{"id": "C34", "title": "Strings round-trip", "statement": "A string written with write(BinaryWriter, string) is read back by read(BinaryReader, string, maxBytes).", "quantifier": "every string", "why_tests_cant": "all strings", "anchors": ["lib/qdp_io.cc: BinaryWriter::write(string), BinaryReader::read(string)"]}
{"id": "C35", "title": "Lattice files do not depend on layout or machine", "statement": "Writing a lattice field produces the sites in lexicographic order of their coordinates, the same bytes for every layout, node grid and number of processes; reading the file back under any other layout or node grid restores the field.", "quantifier": "every lattice, layout pair, node-grid pair and field", "why_tests_cant": "all machine shapes", "anchors": ["lib/qdp_parscalar_specific.cc: writeOLattice, readOLattice", "include/qdp_scalar_specific.h: write, read"]}
{"id": "C36", "title": "Lattice files in the 3-d checkerboard build match the other builds", "statement": "A field written by a program built with the 3-d checkerboard layout can be read by a program built with another layout and vice versa.", "quantifier": "every lattice with more than one site in the time direction", "why_tests_cant": "needs two builds; all shapes", "anchors": ["lib/qdp_layout.cc: crtesn (3-d variant)", "lib/qdp_parscalar_specific.cc: writeOLattice"]}
{"id": "C37", "title": "Time-slice and subset I/O move exactly the selected sites", "statement": "Writing a time slice writes exactly the sites with that last coordinate in lexicographic order and reading it back changes exactly those sites; writing and reading a subset moves exactly its sites.", "quantifier": "every lattice, slice, subset and field", "why_tests_cant": "all shapes", "anchors": ["include/qdp_disk_map_slice.h: TimeSliceIO", "include/qdp_scalar_specific.h: readSlice, writeSlice", "lib/qdp_parscalar_specific.cc: writeOLatticeSlice"]}
{"id": "C38", "title": "peekSite and pokeSite behave as array access on every node", "statement": "peekSite returns on every node the value stored at the given coordinate; after pokeSite at x, peekSite at x returns the new value and at any other coordinate the old one.", "quantifier": "every layout, node grid, field and coordinates", "why_tests_cant": "all machine shapes", "anchors": ["include/qdp_scalar_specific.h: peekSite, pokeSite", "include/qdp_parscalar_specific.h: peekSite, pokeSite"]}
{"id": "C39", "title": "The in-memory map object behaves as a finite map", "statement": "Any sequence of insert, get, erase, clear, exist, size and keys calls on a MapObjectMemory returns what a finite map from keys to values returns, each key being listed once.", "quantifier": "every sequence of operations", "why_tests_cant": "all histories", "anchors": ["include/qdp_map_obj_memory.h: MapObjectMemory"]}
{"id": "C40", "title": "The on-disk map object returns the last inserted value", "statement": "After opening a MapObjectDisk for writing and any sequence of inserts, updates and gets, every inserted key returns the value last inserted under it, also after closing and reopening the file.", "quantifier": "every sequence of operations, every key and value serialisation", "why_tests_cant": "all histories; the failing histories interleave gets or updates with inserts of new keys", "anchors": ["include/qdp_map_obj_disk.h: insert, get, openRead, closeWrite"]}
{"id": "C41", "title": "Write-only histories of the on-disk map are lossless", "statement": "If new keys are inserted without any intervening get or update in the same session, then after close (or flush) and reopen exactly the inserted keys are present, each with its value, with all checksums verifying and the user data preserved.", "quantifier": "every list of distinct keys and values, any user data", "why_tests_cant": "all histories and sizes", "anchors": ["include/qdp_map_obj_disk.h"]}
{"id": "C42", "title": "A crash before the final close is detected", "statement": "If the program stops at any point after creating an on-disk map and before closing it, reopening the file either aborts with a checksum or header error or shows a previously flushed consistent map; it never returns a value that was not inserted.", "quantifier": "every prefix of every sequence of writes", "why_tests_cant": "all crash points", "anchors": ["include/qdp_map_obj_disk.h: openRead, readMapBinary, closeWrite"]}
{"id": "C43", "title": "The 12-real gauge format loses nothing", "statement": "Reconstructing the third row of a 3x3 matrix from the first two, as done when reading 4D_SU3_GAUGE archives, returns the original matrix for every special unitary matrix.", "quantifier": "every SU(3) matrix over any commutative ring with complex conjugation", "why_tests_cant": "continuum of matrices", "anchors": ["lib/qdp_scalar_specific.cc: readArchiv", "lib/qdp_parscalar_specific.cc: readArchiv"]}
{"id": "C44", "title": "Gauge archives round-trip with matching checksums", "statement": "Writing a gauge configuration in archive format and reading it back restores it, the checksum computed by the reader equals the one computed by the writer, and both are independent of the node grid.", "quantifier": "every configuration, lattice, node grid, word size", "why_tests_cant": "all configurations and machines", "anchors": ["lib/qdp_scalar_specific.cc: computeChecksum, readArchiv, writeArchiv", "lib/qdp_parscalar_specific.cc: computeChecksum, readArchiv, writeArchiv"]}
{"id": "C45", "title": "Gauge archive headers describe the data", "statement": "The header written for a configuration, when read back, yields the same matrix format, boundary conditions, lattice size and checksum.", "quantifier": "every header", "why_tests_cant": "all headers", "anchors": ["lib/qdp_iogauge.cc: writeArchivHeader, readArchivHeader"]}
{"id": "C46", "title": "Array comparison is a total order", "statement": "operator<, ==, > on multi1d arrays form a strict lexicographic total order: exactly one of a<b, a==b, a>b holds, < is transitive, and <= / >= are the reflexive closures.", "quantifier": "every pair and triple of arrays over any totally ordered element type", "why_tests_cant": "all arrays", "anchors": ["include/qdp_multi.h: operator==, operator<, operator>, operator<=, operator>="]}
{"id": "C47", "title": "Multi-dimensional array indexing is collision free and in bounds", "statement": "For multi2d to multi5d, a(i,j,...) addresses distinct elements for distinct in-range indices, never leaves the allocation, reaches every element, and a[i][j]... addresses the same element as a(i,j,...).", "quantifier": "every array shape and index", "why_tests_cant": "all shapes", "anchors": ["include/qdp_multi.h: multi2d, multi3d, multi4d, multi5d"]}
{"id": "C48", "title": "N-dimensional array indexing is consistent", "statement": "For multiNd, the rank-specific a(i,j,..) and the packed a[{i,j,..}] address the same element, in bounds, for every shape.", "quantifier": "every shape and index", "why_tests_cant": "only non-square shapes differ", "anchors": ["include/qdp_multi.h: multiNd"]}
{"id": "C49", "title": "Assignment copies arrays", "statement": "After a = b on multi1d..multi5d, a has b's shape and elements and b is unchanged, including self-assignment.", "quantifier": "every array and aliasing pattern", "why_tests_cant": "undefined contents after self-assignment need not show in a test", "anchors": ["include/qdp_multi.h: operator="]}
{"id": "C50", "title": "Aligned allocation is sound", "statement": "Every block returned by the default allocator is aligned as requested and lies inside the memory obtained for it, live blocks never overlap, freeing returns exactly the memory obtained, and freeing an unknown pointer aborts.", "quantifier": "every history of allocate and free, every underlying allocator behaviour", "why_tests_cant": "all histories", "anchors": ["lib/qdp_default_allocator.cc: allocate, free", "lib/qdp_pool_allocator.cc"]}
{"id": "C51", "title": "Node lists are deduplicated in order", "statement": "uniquify_list returns each distinct value once, in order of first occurrence.", "quantifier": "every non-empty list", "why_tests_cant": "all lists", "anchors": ["lib/qdp_util.cc: uniquify_list"]}
{"id": "C52", "title": "Gamma matrices satisfy the Clifford algebra", "statement": "The sixteen hand-written products Gamma(n)*v are the products of the four generators selected by the bits of n; generators square to one, anticommute and are hermitian; right multiplication of a spin matrix agrees with left multiplication and with multiplication by the explicit 4x4 matrix; likewise in the Dirac-Pauli basis.", "quantifier": "every spin vector and spin matrix over any ring with imaginary unit", "why_tests_cant": "continuum of inputs", "anchors": ["include/qdp_primspinvec.h: operator*(GammaConst,...)", "include/qdp_primspinmat.h: operator*"]}
{"id": "C53", "title": "Spin projection and reconstruction factor 1 +/- gamma_mu", "statement": "spinReconstructDirMuPlus/Minus(spinProjectDirMuPlus/Minus(v)) = (1 +/- gamma_mu) v for each direction and sign, and the optimised inline kernels compute the same for any number of sites.", "quantifier": "every spinor, direction, sign and number of sites", "why_tests_cant": "continuum of inputs", "anchors": ["include/qdp_primspinvec.h: spinProject*, spinReconstruct*", "include/scalarsite_generic/generic_spin_proj_inlines.h", "include/scalarsite_generic/generic_spin_recon_inlines.h"]}
{"id": "C54", "title": "Colour contractions are epsilon contractions", "statement": "The unrolled colorContract and quarkContract formulas equal the documented double-epsilon contractions.", "quantifier": "every triple (pair) of colour matrices over any commutative ring, and every spin structure", "why_tests_cant": "continuum of inputs", "anchors": ["include/qdp_primcolormat.h: colorContract, quarkContractXX", "include/qdp_primspinmat.h: quarkContract*"]}
{"id": "C55", "title": "Optimised kernels equal the generic expressions", "statement": "The unrolled 3x3 matrix-matrix, adjoint and matrix-vector kernels and the unrolled vector kernels (axpy family with and without chirality projection, inner product, norm) compute the mathematical expression they replace, for every vector length.", "quantifier": "every input and every length", "why_tests_cant": "continuum of inputs, all lengths", "anchors": ["include/scalarsite_generic/generic_mult_nn.h", "include/scalarsite_generic/generic_blas_*.h"]}
{"id": "C56", "title": "Layout creation succeeds for every supported dimension", "statement": "For every number of dimensions the library can be configured with (--enable-Nd) and every lattice size admissible for the layout, Layout::create builds the default sets without aborting.", "quantifier": "every number of dimensions, layout and lattice size", "why_tests_cant": "the test programs are compiled for Nd=4 only; the claim ranges over all configurations and sizes", "anchors": ["lib/qdp_subset.cc: SetRB3Func::operator(), initDefaultSets", "lib/qdp_scalar_layout.cc: Layout::create, initDefaults"]}
{"id": "C57", "title": "In-place shift stores the shifted field", "statement": "a = shift(a, sign, dir) leaves in a the field shift(a_old, sign, dir), on every architecture and for every number of threads; and b = shift(a,sign,dir) with b another field is the shifted field for every schedule.", "quantifier": "every lattice, field, direction, sign, architecture and thread schedule", "why_tests_cant": "depends on evaluation order of sites and on the interleaving of threads; tests use a separate destination", "anchors": ["include/qdp_scalar_specific.h: Map::operator(), evaluate", "include/qdp_parscalar_specific.h: Map::operator()"]}
{"id": "C58", "title": "Whole-lattice predicates quantify over every site of every node", "statement": "isnan and isinf of a lattice field are true exactly when some site of some node has the property, isfinite and isnormal exactly when all sites of all nodes do.", "quantifier": "every field, node count and per-site predicate", "why_tests_cant": "ranges over all fields and distributions over nodes", "anchors": ["include/qdp_parscalar_specific.h: isnan, isinf, isfinite, isnormal", "include/qdp_scalar_specific.h"]}
{"id": "C59", "title": "Binary readers and writers always report a defined checksum", "statement": "getChecksum on any BinaryReader, BinaryWriter or BinaryReaderWriter returns the CRC-32 of the bytes transferred since construction or the last seek or reset.", "quantifier": "every way to construct a reader or writer and every sequence of reads and writes", "why_tests_cant": "The member is uninitialised after some constructors; a test sees whatever the memory held, usually zero.", "anchors": ["lib/qdp_io.cc:BinaryBufferReader(const std::string&)", "lib/qdp_io.cc:BinaryBufferWriter(const std::string&)", "lib/qdp_io.cc:BinaryBufferReaderWriter(const std::string&)"]}
{"id": "C60", "title": "Seeking a reader-writer moves both reading and writing", "statement": "After seek(p) on a BinaryReaderWriter the next write goes to position p, nothing else changes, and after seek(p) again the next read returns what was written.", "quantifier": "every file or buffer content, position and sequence of values", "why_tests_cant": "The effect depends on the history of earlier reads and writes and on the kind of stream.", "anchors": ["lib/qdp_io.cc:BinaryReaderWriter::seek", "include/qdp_io.h:BinaryBufferReaderWriter"]}
{"id": "C61", "title": "Clearing a binary buffer empties it", "statement": "After clear() on a BinaryBufferReader, -Writer or -ReaderWriter the buffer is empty, as documented.", "quantifier": "every buffer state", "why_tests_cant": "Must hold for every history before the call.", "anchors": ["lib/qdp_io.cc:BinaryBufferWriter::clear", "lib/qdp_io.cc:BinaryBufferReader::clear"]}
{"id": "C62", "title": "Lattice output stays within its buffers", "statement": "Writing a lattice field or a single site of it never accesses memory outside the library's buffers.", "quantifier": "every element type, lattice, node grid, node and machine type", "why_tests_cant": "all element sizes and machine types; the overrun is a few bytes and usually goes unnoticed", "anchors": ["lib/qdp_parscalar_specific.cc: writeOLattice, clearToSend"]}
{"id": "C63", "title": "QDP_extract and QDP_insert are inverse to each other", "statement": "Extracting the sites of a subset into an array and inserting them into another field copies exactly the sites of the subset; the array is indexed by site number, not by position in the subset, and must be long enough for that.", "quantifier": "every subset, field and array", "why_tests_cant": "all subsets and array lengths", "anchors": ["include/qdp_parscalar_specific.h: QDP_extract, QDP_insert", "include/qdp_scalar_specific.h: QDP_extract, QDP_insert"]}
{"id": "C64", "title": "An on-disk map can be created and positions are converted without loss", "statement": "Creating a MapObjectDisk file, inserting a new key and closing work on every machine; stream positions survive the conversion to their 128-bit on-disk form and back.", "quantifier": "every machine, user data and stream position below 2^63", "why_tests_cant": "depends on the processor's behaviour for an undefined operation; all positions", "anchors": ["include/qdp_map_obj_disk.h: convertToPrivate, convertFromPrivate, max_uint64, openWrite"]}
{"id": "C65", "title": "An on-disk map object shows only the keys of its file", "statement": "After opening a file, keys() and exist() report exactly the keys stored in that file, also if the object was used for another file before.", "quantifier": "every previous history of the object and file", "why_tests_cant": "all histories of the object", "anchors": ["include/qdp_map_obj_disk.h: open, close, keys, exist"]}
{"id": "C66", "title": "A failed insert is reported", "statement": "insert() returns 0 only if the value has been stored; inserting into an object that is closed or was opened read-only returns a nonzero code.", "quantifier": "every file, key and value", "why_tests_cant": "all files, keys and values", "anchors": ["include/qdp_map_obj_disk.h: insert"]}
{"id": "C67", "title": "Several on-disk maps are read as one", "statement": "A MapObjectDiskMultiple returns for a key the value of the first file that has it, lists every key once, tells whether files exist before opening them, and may be closed repeatedly.", "quantifier": "every list of files and sequence of operations", "why_tests_cant": "all lists of files and histories", "anchors": ["include/qdp_map_obj_disk_multiple.h: MapObjectDiskMultiple"]}
{"id": "C68", "title": "A compound operation with a scalar uses one scalar", "statement": "a += s, a -= s, a *= s and a /= s on a multi1d combine every element with the value s had before the statement, whatever s refers to; in particular a *= a[k] multiplies every element by the old a[k].", "quantifier": "every array, operation and index k", "why_tests_cant": "all arrays, all operations and all aliases", "anchors": ["include/qdp_multi.h: multi1d::operator+=, -=, *=, /= (const T&)"]}
{"id": "C69", "title": "A part of an array can be assigned", "statement": "a[j] = b replaces the j-th row (or sub-array) of a multi-dimensional array by b when the sizes agree and changes nothing else.", "quantifier": "every rank, shape, index and contents", "why_tests_cant": "all shapes, ranks and histories", "anchors": ["include/qdp_multi.h: multi2d..multi5d operator[], multi1d..multi4d operator="]}
{"id": "C70", "title": "norm2 of an array is the sum of its squares", "statement": "norm2(a) of a multi1d returns the sum of the squares of its elements in index order, also for an empty array.", "quantifier": "every size and contents", "why_tests_cant": "all sizes and element types", "anchors": ["include/qdp_multi.h: norm2"]}
{"id": "C71", "title": "Lattice objects own aligned, disjoint memory", "statement": "Every lattice object that is not a view has its own aligned memory of its full size, objects in scope do not share memory, all memory is returned when they leave scope, and a lattice for which there is no memory is never constructed.", "quantifier": "every sequence of constructions, views and destructions, and every behaviour of the system allocator", "why_tests_cant": "all histories", "anchors": ["include/qdp_outer.h: OLattice::alloc_mem, free_mem", "lib/qdp_default_allocator.cc", "lib/qdp_pool_allocator.cc"]}
{"id": "C72", "title": "Complex numbers behave as such", "statement": "The operators, mixed real/complex operators, conj, adj, timesI, division, where and the assignment operators of Complex are those of the complex numbers, also when an operand is the destination.", "quantifier": "every value in any commutative ring (field for division), every aliasing of operand and destination", "why_tests_cant": "all values and aliasing patterns", "anchors": ["include/qdp_reality.h: RComplex operators"]}
{"id": "C73", "title": "Colour, spin and complex objects are matrices", "statement": "For every nesting of scalars, matrices and vectors: sums, products, adjoints, transposes, traces over all or some indices, real and imaginary parts, inner products, norms and outer products are those of the matrices the objects stand for; so products associate and distribute, adj reverses them, trace is cyclic and adj moves a matrix across an inner product.", "quantifier": "every well-formed nesting of levels of any size, every value in any commutative ring", "why_tests_cant": "all types, sizes and values", "anchors": ["include/qdp_primmatrix.h", "include/qdp_primvector.h", "include/qdp_primscalar.h", "include/qdp_primspinmat.h", "include/qdp_primcolormat.h", "include/qdp_reality.h"]}
{"id": "C74", "title": "Rewriting an expression does not change it", "statement": "adj(a)*b, a*adj(b), trace(a*b), traceSpin(a*b), traceColor(a*b), trace(adj(a)*b), real(trace(a)), traceSpin(outerProduct(a,b)) and their combinations, which are replaced by fused operations while the expression is built, have the value of the expression as written.", "quantifier": "every expression that compiles, of any size, over objects of any of the types and values", "why_tests_cant": "unboundedly many expressions and types", "anchors": ["include/qdp_optops.h: operator*, trace, traceSpin, traceColor, real"]}
{"id": "C75", "title": "isnan, isinf, isfinite and isnormal look at everything", "statement": "isnan and isinf are true when some number in the object is NaN or infinite, isfinite and isnormal when all numbers are finite or normal; for a lattice the answer covers all sites of all nodes.", "quantifier": "every nesting of types and value, every distribution of sites over nodes", "why_tests_cant": "all positions of the offending number and all node counts", "anchors": ["include/qdp_primmatrix.h: isnan, isnormal", "include/qdp_parscalar_specific.h: isnan, globalAnd, globalOr", "include/qdp_reality.h: isnan"]}
{"id": "C76", "title": "Vector kernels stay within their sites", "statement": "A vector operation on a range of sites reads and writes only the storage of those sites.", "quantifier": "every kernel, number of sites, memory and choice of operands (an operand may be the destination)", "why_tests_cant": "a read behind the last site is normally silent; it must hold for every length and placement", "anchors": ["include/scalarsite_generic/generic_blas_*.h"]}
{"id": "C77", "title": "Specialised evaluate functions do what the expression says", "statement": "For the expression shapes of fermion fields that have a hand-written evaluate() (real- and complex-scaled sums and differences, and their chiral-projected, gamma_5 and i*gamma_5 forms, in the assignments =, +=, -=, *= and /=), assigning the expression over a subset stores at every site of the subset the value of the expression (or adds, subtracts, multiplies by or divides by it) and changes nothing else - whatever the form of the subset and the division of sites over threads.", "quantifier": "every specialisation, memory, operand placement allowed by the language (the destination may be an operand where the form is elementwise), subset, thread count and order of the thread calls", "why_tests_cant": "all subsets, thread counts, values and alias patterns; a wrong operand order or sign in one of 83 nearly equal functions shows only for that expression", "anchors": ["include/scalarsite_generic/qdp_scalarsite_generic_blas.h: evaluate", "include/scalarsite_generic/qdp_scalarsite_generic_blas_g5.h: evaluate", "include/scalarsite_generic/qdp_scalarsite_generic_cblas.h: evaluate", "include/scalarsite_generic/*_wrapper.h"]}
{"id": "C78", "title": "Colour matrix times half fermion", "statement": "h = u * g stores at every site of the subset u times each spin component of g and changes nothing else; also when g is h itself.", "quantifier": "every field content, subset, thread count and order of thread calls, and every choice of g", "why_tests_cant": "all values, subsets and alias patterns", "anchors": ["include/scalarsite_generic/qdp_scalarsite_generic_linalg.h: evaluate", "include/scalarsite_generic/generic_mat_vec.h"]}
{"id": "C79", "title": "Site numbers are computed without overflow", "statement": "On a lattice with fewer than 2^31 sites no 32-bit int operation in computing the volume, a site's number, a site's coordinates or the sum of its coordinates overflows, and the results are the mathematical ones; from 2^31 sites on the computation of the volume does overflow, on any number of nodes.", "quantifier": "every number of dimensions, extents, ordering of the axes and site", "why_tests_cant": "overflow shows only on lattices too large for a test, and must be excluded for all shapes", "anchors": ["lib/qdp_layout.cc: local_site, crtesn", "lib/qdp_scalar_layout.cc: create, linearSiteIndex", "lib/qdp_parscalar_layout.cc: create"]}
{"id": "C80", "title": "Fast norms and inner products of fermion fields", "statement": "norm2, innerProduct and innerProductReal of lattice fermions, which are replaced by hand-written versions, return the sum of |psi|^2, psi^dagger chi and Re psi^dagger chi over exactly the sites of the subset on all nodes (or over the lattice, or over the elements of arrays of fields of equal length), whatever the layout, the form of the subset and the contents of uninitialised locals.", "quantifier": "every field, layout, colouring, subset (contiguous or not, empty on some nodes) and length of array", "why_tests_cant": "all values, subsets and node counts; results must agree with the generic code for each", "anchors": ["include/scalarsite_generic/qdp_scalarsite_generic_blas.h: norm2, innerProduct, innerProductReal", "include/scalarsite_generic/generic_blas_local_sumsq.h", "include/scalarsite_generic/generic_blas_local_vcdot.h", "include/scalarsite_generic/generic_blas_local_vcdot_real.h"]}
{"id": "C81", "title": "Sub-lattices are values, subset views are references", "statement": "In every program over lattices and sub-lattices (OSubLattice): a sub-lattice with memory of its own holds one value per site of its subset, is independent of the lattice it was gathered from and of its copies, and assigning to it or from it moves values site by site; a[s] is the sites s of a itself, so assigning to it changes exactly these sites; sums and inner products run over exactly the sites of the subset on all nodes; memory is released exactly once and nothing is leaked; misuse is reported and never silently corrupts data.", "quantifier": "every sequence of declarations, views, gathers, copies, setSubset, assignments, products and destructors, every subset, element type and assignment operator", "why_tests_cant": "aliasing and lifetimes depend on the whole history of the objects", "anchors": ["include/qdp_outersubtype.h: OSubLattice, OSubScalar", "include/qdp_qdpsubtype.h: QDPSubType", "include/qdp_globalfuncs_subtype.h: sum, localInnerProduct, innerProduct, zero_rep_F", "include/qdp_qdptype.h: QDPType::assign(QDPSubType)", "include/qdp_parscalar_specific.h: evaluate_F"]}
{"id": "C82", "title": "I/O nodes partition the machine", "statement": "With an I/O grid (-iogeom) every node is assigned an I/O node; an I/O node is its own; two nodes share one exactly if they lie in the same block when each direction of the machine is cut into slabs of equal width (the last may be narrower); the master is an I/O node; as many I/O nodes are used as asked for; a grid that cannot be used is rejected.", "quantifier": "every machine grid, numbering of nodes, I/O grid and node", "why_tests_cant": "a node that no I/O node serves, or one that is served twice, shows only on some geometries of large machines", "anchors": ["lib/qdp_qdpio.cc: io_node, master_io_node, io_node_multifile", "lib/qdp_parscalar_layout.cc: Layout::setIONodeGrid, Layout::getIONodeGrid, Layout::numIONodeGrid", "lib/qdp_parscalar_init.cc: -iogeom"]}
{"id": "C83", "title": "QIO records are read back as they were written", "statement": "A lattice, an array of lattices, a hypercube of a lattice, scalars and byte buffers written with QDPFileWriter and read with QDPFileReader hold the same values at every site (on every node for scalars), whatever layouts, numbers of nodes and byte orders write and read, with floating point numbers converted to the precision of the destination; a record that does not fit the destination is refused and never read as something else.", "quantifier": "every lattice, layout, machine, byte order, word type, number of components, array length, hypercube and contents", "why_tests_cant": "two machines, two precisions and two builds have to meet; overruns by the copy of a mismatched record need not show", "anchors": ["include/qdp_qdpio.h: QDPFileWriter::write, QDPFileReader::read, QDPOLatticeFactoryPut, QDPOLatticeFactoryPutArray, QDPOLatticeFactoryGet, QDPOLatticeFactoryGetArray, QDPOScalarFactoryPut, QDPOScalarFactoryGet", "lib/qdp_qdpio.cc: QDPFileReader::read(BinaryBufferReader), QDPFileWriter::write(BinaryBufferWriter)", "lib/qdp_qio_strings.cc", "include/qdp_traits.h: SinglePrecType, DoublePrecType"]}
{"id": "C84", "title": "Lattice objects in HDF5 files are read back as they were written", "statement": "A lattice object, or an array of them, written with HDF5Writer gives a dataset with the extents of the lattice in reverse order holding every site's words at the site's coordinates; read with HDF5Reader it has the same values at every site, whatever layouts and numbers of nodes write and read, with floats converted to the precision of the destination; transfers in parts of at most 2 GB change nothing; datasets of another lattice or of another object are refused.", "quantifier": "every lattice, layout, machine, object, precision, number of array members and size of a node's part", "why_tests_cant": "a wrong place in the file shows only for particular layouts and geometries, the division into parts only for fields of gigabytes", "anchors": ["lib/qdp_hdf5.cc: HDF5::prefetchLatticeCoordinates, HDF5::readLattice, HDF5Writer::writeLattice, read, write, readQlua, writeQlua", "include/qdp_hdf5.h: CvtToHost, CvtToLayout, read, write"]}
{"id": "C85", "title": "HDF5 files are trees of named objects", "statement": "HDF5Writer navigates a tree: push makes the missing groups and goes there, mkdir makes them and stays, cd goes to the group a name denotes and pwd names it, pop goes up; a value (number, array, string, complex number, other scalar object) or attribute written under a name is read back the same by any name of the object after any further calls that do not name it; reading as another type, with another shape or under a name that is not there stops the program; without permission nothing is replaced.", "quantifier": "every file, working group, spelling of a name, value, and sequence of calls", "why_tests_cant": "names have infinitely many spellings and what a call destroys shows only in what else is in the file", "anchors": ["lib/qdp_hdf5.cc: HDF5::objectExists, pwd, pop, cd, HDF5Writer::push, mkdir, write, writeAttribute, deleteAttribute, writeQlua, HDF5::read, readAttribute", "include/qdp_hdf5.h: rd, rdAtt, wt, wtAtt, commitType, read and write of OScalar"]}
{"id": "C86", "title": "Values written to XML are read back", "statement": "A string, character, number, bool, seed, complex number, pair, std::map, or array/vector/list of these (nested to any depth) written under a name and read back from the document with the matching read is the value written; a list of numbers in the text is read as the numbers it spells and any other text is refused; reading a map adds to or overwrites what the map held.", "quantifier": "every type, value, document and text", "why_tests_cant": "types nest without bound and the texts a user may put in an input file are infinitely many", "anchors": ["include/qdp_xmlio.h: read, write of multi1d, std::vector, std::list, std::map, std::pair, MapObject", "lib/qdp_xmlio.cc: XMLReader::get, readPrimitive, readArrayPrimitive, readVectorPrimitive, readListPrimitive, writeArrayPrimitive, XMLWriter", "include/qdp_primseed.h, qdp_reality.h: read, write"]}
{"id": "C87", "title": "All nodes see the same XML input", "statement": "A program that reads XML input on several nodes gets, on every node, what the primary node finds in the document: every value and every exception is the same on all nodes, and every broadcast is received by the node it is meant for.", "quantifier": "every document, every program of queries with any handling of exceptions, every type read", "why_tests_cant": "which nodes throw and which wait depends on where in the document the first fault is and on what the program asks next", "anchors": ["lib/qdp_xmlio.cc: XMLReader::get, readPrimitive, count, XMLReader(XMLReader&, xpath), readArrayPrimitive", "lib/qdp_parscalar_specific.cc: broadcast_str", "include/qdp_xmlio.h: read"]}
{"id": "C88", "title": "The command line and the life of the library", "statement": "QDP_initialize sets what the command line says: options may stand in any order between other arguments, the last option about a setting decides, all other arguments are left alone, -h prints the usage and ends the program, and a line with a missing or malformed argument is reported. The library may be started and stopped any number of times in turn, QDP_isInitialized tells whether it runs, and a start or stop at the wrong time ends the program with a message.", "quantifier": "every list of program arguments, every number of dimensions, every history of calls of QDP_initialize, QDP_finalize and QDP_abort", "why_tests_cant": "what happens with an incomplete line or a second stop depends on uninitialised or freed memory, which a test may find harmless", "anchors": ["lib/qdp_parscalar_init.cc: QDP_initialize, QDP_finalize, QDP_abort, QDP_isInitialized", "lib/qdp_scalar_init.cc: QDP_initialize, QDP_finalize, QDP_abort", "lib/qdp_util.cc: QDP_error_exit"]}
{"id": "C89", "title": "Floating-point numbers written as text", "statement": "Arrays, vectors and lists of floating-point numbers written to XML (and numbers written to text) are read back with the same length and every number to within one unit of the last digit written; numbers with no more digits than are written, such as whole numbers, come back exactly; a number typed with that many digits is written as it was typed; and text that has been read is written again as the same text, so that copies do not drift.", "quantifier": "every finite float or double (normal numbers for the last two), every number of digits from 2 to 17, every list of numbers", "why_tests_cant": "the numbers that drift, collide or overflow lie next to powers of ten and two; a test would have to hit one of them", "anchors": ["lib/qdp_xmlio.cc: write of arrays, vectors and lists, readArrayPrimitive, readVectorPrimitive, readListPrimitive", "lib/qdp_stdio.cc: StandardOutputStream::operator<<", "lib/qdp_io.cc: TextWriter::writePrimitive"]}
{"id": "C90", "title": "Arrays written to XML piece by piece", "statement": "An array written with XMLArrayWriter, element by element, leaves in the document exactly the tree that the whole array would leave, whatever its elements hold, whatever they are named and whether the array is popped or the writer just destroyed; a wrong number of elements ends the program; and however the calls are mixed, no closing tag meets the wrong opening tag.", "quantifier": "every array, content of the elements, names, announced size, document before; every sequence of calls on the writer", "why_tests_cant": "the writer is a state machine driven by the order of the calls; the failing orders (no element, an element left early, an element without group) are those a test does not think of", "anchors": ["lib/qdp_xmlio.cc: XMLArrayWriter::openArray, closeArray, openStruct, closeStruct, ~XMLArrayWriter, push, pop", "include/qdp_xmlio.h: XMLArrayWriter", "docs/usr/io.dox: XMLArrayWriter"]}
{"id": "C91", "title": "Text files, buffers and standard streams on several nodes", "statement": "Whole numbers, characters, bools and words written as text with white space after each are read back unchanged on every node, and after any sequence of reads, failing or not, all nodes hold the same values; scalars of the library written as text are read back; a buffer reader can be opened on another text and a buffer writer continues the text it was given; a file object used for one file after another leaves in each file what was written to it last.", "quantifier": "every sequence of values, white space, program of reads and text; every word; every history of opening, writing and closing; any number of nodes and any earlier contents of the variables and files", "why_tests_cant": "failures leave old values behind that differ from node to node, and the losses are silent: fail() is only seen by programs that ask", "anchors": ["lib/qdp_io.cc: TextReader, TextBufferReader, TextFileReader, TextWriter, TextBufferWriter, TextFileWriter, BinaryFileWriter::open", "lib/qdp_stdio.cc: StandardInputStream, StandardOutputStream", "include/qdp_reality.h, include/qdp_primvector.h, include/qdp_primmatrix.h, include/qdp_primseed.h: operator<< and operator>> of TextWriter and TextReader", "lib/qdp_xmlio.cc: XMLFileWriter::open"]}
{"id": "C92", "title": "Numbers of colours and spins in the records of data files", "statement": "The record information written with every field states the number of colours and spins of its type, whatever order the compiler and linker initialise static members in.", "quantifier": "every type built from the library's templates and every order of initialisation", "why_tests_cant": "the order is chosen by the compiler and linker and differs from one build to the next; a test sees one order", "anchors": ["include/qdp_qdpio.h: NumSpins<T>::value, NumColors<T>::value, QDPFileWriter::write"]}
{"id": "C93", "title": "Stopwatches and profiling", "statement": "A stopwatch shows the total length of the intervals between each stop and the latest start before it, since the last reset; the profile lists every expression evaluated while profiling was on once, with how often and how long it ran, under the section it ran in; leaving a section restores the profile level from before it.", "quantifier": "every history of starts, stops and resets and every sequence of clock readings, failing or running backwards; every history of sections, levels and evaluations", "why_tests_cant": "the clock is set back or fails at unpredictable times, and the profile depends on the whole history of the program", "anchors": ["lib/qdp_stopwatch.cc: StopWatch::start, stop, reset, calcDuration, getTimeInMicroseconds", "lib/qdp_profile.cc: pushProfileInfo, popProfileInfo, registerProfile, printProfile", "include/qdp_profile.h: QDPProfile_t"]}
{"id": "C94", "title": "Operators and functions in expressions", "statement": "An expression written with the operators and functions of the library has, at every site, the value of the functions written applied to their operands in the order written; plain numbers keep their value; every function accepts any mixture of fields, expressions and plain numbers, and no call is ambiguous.", "quantifier": "every expression of any depth over all 92 operators and functions, every mixture of fields, expressions and plain numbers as operands, every meaning of the functions and every rounding", "why_tests_cant": "there are 436 generated functions and infinitely many expressions; a wrong tag or a swapped operand in one of them shows only in the expressions that select it", "anchors": ["include/QDPOperators.h: all functions", "include/PETE/OperatorTags.h: all tags", "include/PETE/ForEach.h: forEach", "include/qdp_simpleword.h: where"]}
{"id": "C95", "title": "Functions of real, integer and boolean objects", "statement": "Operators, comparisons, elementary functions and assignments of real, integer and boolean objects are those of C++ on the words inside, operands in order; adjoints, transposes, traces and real parts leave a real as it is and its imaginary part is zero; inner products, norms and sums of reals are made in double precision; where chooses; every combination of word types compiles; no function gives any other value.", "quantifier": "every function of one, two or three operands, every combination of word types (int, unsigned, single, double, bool), every depth of wrapping, and every arithmetic of the machine with the stated laws", "why_tests_cant": "106 functions of PScalar, 70 of RScalar and 41 of words compose over 25 and 125 combinations of types, with C++ overload resolution at the end; tests run a few of them, and a call that does not compile cannot be in a test.", "anchors": ["include/qdp_primscalar.h: PScalar functions 233-1590", "include/qdp_reality.h: RScalar functions 850-2530", "include/qdp_simpleword.h", "include/qdp_scalarsite_defs.h 59-62"]}
{"id": "C96", "title": "Key-value databases on several nodes", "statement": "A program that keeps a key-value database does on any number of nodes what it does on one: the database gets each call once and in order, every node gets the answers of the database, a failure ends the program on all nodes, and the arguments of nodes other than the primary do not matter; data stored can be fetched again.", "quantifier": "every program whose next call depends on the answers so far, every number of nodes, every behaviour of the database library, all 25 methods", "why_tests_cant": "The library behind may answer anything at any call, programs branch on the answers, and a node that falls out of step hangs or ends the program only on the paths where it happens.", "anchors": ["include/qdp_db_imp.h: BinaryStoreDB"]}
{"id": "C97", "title": "HDF5 readers and writers open, hold and close files as a user believes", "statement": "An HDF5Reader or HDF5Writer has at most one file open. Opening closes the file it had; a reader refuses what is not an HDF5 file; a writer makes a missing file, empties an existing one only when asked to truncate, and refuses another kind of file otherwise. An object sees the contents and the working group it chose; what is written is on the disk once the file is closed, also when the program is stopped by an error; nothing stays open in HDF5 when all objects are closed.", "quantifier": "every program of constructions, openings, closings, destructions, changes of group and changes of contents on any number of objects and files, every file system at the start, every type of contents", "why_tests_cant": "Objects share the tables of the HDF5 library: whether one disturbs another depends on the whole history of openings, closings, copies and groups entered.", "anchors": ["lib/qdp_hdf5.cc: HDF5::close, HDF5::check_exists, HDF5::cd, HDF5::pop, HDF5Reader::open, HDF5Writer::open", "include/qdp_hdf5.h: HDF5, HDF5Reader, HDF5Writer"]}
{"id": "C98", "title": "A damaged gauge archive is noticed", "statement": "readArchiv accepts a gauge archive only if what follows the header is what was written: if bytes are changed, parts exchanged or the end is missing, the program stops with an error instead of using a wrong configuration.", "quantifier": "every header in the accepted form, every lattice and build, both byte orders, 12 or 18 numbers of 4 or 8 bytes, every sequence of bytes after the header (right, changed, reordered, cut at any place)", "why_tests_cant": "tests read files they have just written; the ways of being damaged are all byte sequences", "anchors": ["lib/qdp_iogauge.cc readArchiv", "lib/qdp_scalar_specific.cc readArchiv", "lib/qdp_parscalar_specific.cc readArchiv", "lib/qdp_io.cc BinaryReader::readArrayPrimaryNode, BinaryReader::fail"]}
{"id": "C99", "title": "The SSE kernels for double precision colour matrices compute the product", "statement": "In a build with SSE, a statement d = X*Y, d += X*Y or d -= X*Y on double precision colour matrix fields, X and Y a field or the adjoint of one, and d = X, d += X, d -= X, gives every site of the subset the value of the formula and changes nothing else - as in a build without SSE, also when d occurs on the right hand side.", "quantifier": "SSE2 and SSE3, the three assignments, all four combinations of adjoints, all values (of any commutative ring), all lattice sizes, ordered and listed subsets, numbers of threads and orders of their calls, all cases of operands being the same field; for single matrices any alignment", "why_tests_cant": "the kernels are several thousand intrinsics with hand-written register shuffles; the tests use one volume and operands that are all different, and the order of loads and stores only matters when they are not", "anchors": ["lib/scalarsite_sse/qdp_scalarsite_linalg_double.cc evaluate", "lib/scalarsite_sse/sse_linalg_m_eq_mm_double.cc ssed_m_eq_mm ssed_m_peq_amm", "lib/scalarsite_sse/sse_linalg_m_eq_hm_double.cc", "lib/scalarsite_sse/sse_linalg_m_eq_mh_double.cc", "lib/scalarsite_sse/sse_linalg_m_eq_hh_double.cc", "lib/scalarsite_sse/sse_linalg_m_eq_scal_m_double.cc", "lib/scalarsite_sse/sse_linalg_m_peq_m_double.cc", "include/scalarsite_sse/qdp_scalarsite_sse_linalg_double.h operator* adjMultiply multiplyAdj adjMultiplyAdj"]}
{"id": "C100", "title": "Fermion statements and sums in SSE builds", "statement": "In a build with SSE the statements on double precision fermion fields that are replaced by hand-written kernels (d += a*x, d = a*x + y, d = a*x - b*y, d *= a, ... in every order of the operands) give every site of the subset the value of the formula and change nothing else, also when fields occur on both sides; norm2, innerProduct and innerProductReal of fields, on subsets and of arrays of fields are the sums over the sites.", "quantifier": "all statements with a specialisation, all values (of any commutative ring), all lattice sizes, ordered and listed subsets, numbers of threads and orders of their calls, all cases of operands being the same field, SSE2 and SSE3, all earlier sums (contents of the array for the threads' results)", "why_tests_cant": "the kernels have two loops chosen by the number of sites, and the sums share one array between all calls whose contents depend on the history and the number of threads", "anchors": ["include/scalarsite_sse/qdp_scalarsite_sse_blas_double.h evaluate norm2 innerProduct innerProductReal", "include/scalarsite_sse/qdp_scalarsite_sse_blas_double_wrapper.h", "lib/scalarsite_sse/sse_blas_vaxpy4_double.cc", "lib/scalarsite_sse/sse_blas_vaxpbyz4_double.cc", "lib/scalarsite_sse/sse_blas_vaxmbyz4_double.cc", "lib/scalarsite_sse/sse_blas_vaxmyz4_double.cc", "lib/scalarsite_sse/sse_blas_vscal4_double.cc", "lib/scalarsite_sse/sse_blas_local_sumsq_double.cc", "lib/scalarsite_sse/sse_blas_local_vcdot_double.cc", "lib/scalarsite_sse/sse_blas_local_vcdot_real_double.cc", "include/qdp_dispatch.h dispatch_to_threads"]}
{"id": "C101", "title": "QDPFileReader and QDPFileWriter open, hold and close files as a user believes", "statement": "A QDPFileReader or QDPFileWriter has at most one file open; opening closes the file it had. is_open(), eof() and bad() tell whether a file is open, whether all records were read and whether there was an error. The header of a record can be read any number of times, records are read in the order they were written. A file is complete once its writer is closed or destroyed, failures are reported, and nothing stays open in QIO when all objects are closed.", "quantifier": "all programs (sequences of constructions, opens in every mode, closes, destructions, reads, writes, queries and copies) with any number of objects and files, all contents of the disk, all answers of the disk", "why_tests_cant": "what an operation does depends on the whole history of the object and of the other objects", "anchors": ["lib/qdp_qdpio.cc QDPFileReader QDPFileWriter open close eof bad clear read write", "include/qdp_qdpio.h QDPFileReader QDPFileWriter"]}
{"id": "C102", "title": "Single precision fields in SSE builds", "statement": "In a build with SSE the assignments d = l, d += l, d -= l of single precision colour matrix fields, the statements on single precision fermion fields that are replaced by hand-written kernels, and norm2, innerProduct and innerProductReal of single precision fermion fields (on subsets, and of arrays of fields) do what the formulas say on the sites of the subset, change nothing else and do not fault.", "quantifier": "all statements with a specialisation, all values (of any commutative ring), all lattice sizes, ordered and listed subsets, numbers of threads and orders of their calls, all cases of operands being the same field, all earlier sums (contents of the array for the threads' results)", "why_tests_cant": "whether an access is aligned depends on the first site of the subset and so on layout and lattice size, and sums share an array whose contents depend on the history and the number of threads", "anchors": ["lib/scalarsite_sse/qdp_scalarsite_sse.cc evaluate vaxpy3 vaxmy3 vadd vsub vscal vaxpby3 vaxmby3 local_sumsq_24_48 local_vcdot local_vcdot_real", "include/scalarsite_sse/qdp_scalarsite_sse_blas.h evaluate norm2 innerProduct innerProductReal", "include/scalarsite_sse/qdp_scalarsite_sse_blas_wrapper.h", "include/qdp_dispatch.h dispatch_to_threads"]}
{"id": "C103", "title": "SSE kernels for spin projection and reconstruction", "statement": "The functions inlineSpinProjDirXY, inlineSpinReconDirXY and inlineAddSpinReconDirXY of SSE builds (X a direction, Y a sign) leave in each of the n_vec sites of the destination the upper components of (1 +- gamma_X) times the source's spinor, the spinor with these upper components on which gamma_X is +-1, or the sum of the old spinor and that one; they change nothing else and do not leave the arrays.", "quantifier": "all 24 functions, all numbers of sites, all values (of any commutative ring), all positions aligned to 16 bytes in two different arrays", "why_tests_cant": "the loops are software pipelined with separate code before and after, so that the last site and the number of sites matter, and the signs sit in shuffles and constants of which single inputs can hide errors", "anchors": ["include/scalarsite_sse/sse_spin_proj_inlines.h inlineSpinProjDir0Plus", "include/scalarsite_sse/sse_spin_recon_inlines.h inlineSpinReconDir0Plus inlineAddSpinReconDir0Plus", "include/qdp_sse_intrin.h SSEVec"]}
{"id": "C104", "title": "Singletons over the life of a program", "statement": "Instance of a SingletonHolder (the allocator of QDP++ is one) returns the same object for the same type throughout main and different objects for different types; it never returns an object that is destroyed; objects are destroyed at most once, those with policy NoDestroy never; at the end of the program those with policy DefaultLifetime are all destroyed, in the reverse order of their construction.", "quantifier": "all programs (policies, constructors and destructors that use other singletons), all histories of calls of Instance and std::atexit in main, all points at which exit ends or the program is terminated", "why_tests_cant": "what happens at exit depends on the order in which the singletons of a program happened to be used first, and a test program ends once", "anchors": ["include/qdp_singleton.h SingletonHolder Instance MakeInstance DestroySingleton DefaultLifetime PhoenixSingleton NoDestroy", "include/qdp_allocator.h theQDPAllocator"]}
{"id": "C105", "title": "XML output of lattice fields", "statement": "Writing a lattice field to an XML writer adds one element OLattice with one elem for every site; the elem whose attribute coord names a site holds the field's value there, with every spin, colour, real and imaginary part under its own row, col, re and im; site is the lexicographic number; the document is the same in every build, layout and number of nodes.", "quantifier": "all layouts, machines and lattice sizes, all nestings of vectors, matrices, seeds and complex numbers, all values, all documents begun before", "why_tests_cant": "every site and component of every layout and node grid must end up under the right label; tests look at a few sites of one layout, and on one node messages do not occur", "anchors": ["include/qdp_scalar_specific.h operator<<(XMLWriter&, OLattice)", "include/qdp_parscalar_specific.h operator<<(XMLWriter&, OLattice)", "include/qdp_primvector.h operator<<", "include/qdp_primmatrix.h operator<<", "include/qdp_primspinvec.h operator<<", "include/qdp_primseed.h operator<<", "include/qdp_reality.h operator<<"]}
{"id": "C106", "title": "The plaquette and the link in gauge archives", "statement": "The plaquette and link trace recorded with a gauge configuration are the averages over all sites and pairs of directions (all sites and directions) of the real part of the trace of the product of links around the plaquette (of the link), with the NERSC normalisation; they do not depend on layout or number of nodes, the plaquette does not change under gauge transformations, unit links give 1, and an archive of SU(3) matrices written by one build passes the checks of any other.", "quantifier": "all gauge fields, lattice sizes and dimensions, numbers of colours, layouts, machines and unitary gauge transformations", "why_tests_cant": "gauge invariance and independence of the layout are statements about all fields and all decompositions; tests compare a few numbers up to rounding, on lattices too small for the int product to overflow", "anchors": ["lib/qdp_iogauge.cc mesplq", "include/qdp_map.h shift", "include/qdp_primcolormat.h", "include/qdp_scalar_specific.h sum", "include/qdp_parscalar_specific.h sum"]}
