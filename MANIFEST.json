{
 "claims": [
  {
   "property": "C01",
   "status": "proved",
   "theorems": [
    "C01_lexicographic_bijection"
   ],
   "note": "All dimensions >= 1, all positive extents, both numbering orders; value identified with an independent lexicographic number."
  },
  {
   "property": "C02",
   "status": "proved",
   "theorems": [
    "C02_scalar_layouts_bijective",
    "C02_create_self_check_passes"
   ],
   "note": "All four single-process layouts."
  },
  {
   "property": "C03",
   "status": "proved",
   "theorems": [
    "C03_scalar_checkerboards_contiguous",
    "C03_parallel_checkerboards_contiguous"
   ],
   "note": ""
  },
  {
   "property": "C04",
   "status": "proved",
   "theorems": [
    "C04_multi_node_layouts_bijective",
    "C04_create_checks_suffice"
   ],
   "note": "QMP node numbering is an argument assumed bijective (checked at run time by create)."
  },
  {
   "property": "C05",
   "status": "proved",
   "theorems": [
    "C05_create_accepts_exactly_admissible"
   ],
   "note": "Stronger than listed: create accepts a lattice of positive extents iff it is admissible, for all four layouts."
  },
  {
   "property": "C06",
   "status": "proved",
   "theorems": [
    "C06_set_make_partitions"
   ],
   "note": "Any colouring function, any sound layout and node."
  },
  {
   "property": "C07",
   "status": "proved",
   "theorems": [
    "C07_flags_exact"
   ],
   "note": ""
  },
  {
   "property": "C08",
   "status": "proved",
   "theorems": [
    "C08_default_sets",
    "C08_neighbours_change_parity"
   ],
   "note": "The shift statement is proved for a direction of even extent."
  },
  {
   "property": "C09",
   "status": "proved",
   "theorems": [
    "C09_copy_independent_refuted",
    "C09_copy_of_live_source"
   ],
   "note": "The property as stated is FALSE of the code: the copied subsets keep pointing at the source tables (two witness histories). Proved instead: the copy is correct as long as neither object is modified later."
  },
  {
   "property": "C10",
   "status": "proved",
   "theorems": [
    "C10_map_gathers",
    "C10_bidirectional_map_gathers",
    "C10_array_map_gathers",
    "C10_array_bidirectional_map_gathers"
   ],
   "note": "Every sound single-process layout, field and map function that maps sites to sites."
  },
  {
   "property": "C11",
   "status": "proved",
   "theorems": [
    "C11_shift_inverse_permutation",
    "C11_shift_value",
    "C11_shifts_commute",
    "C11_shift_around_is_identity"
   ],
   "note": ""
  },
  {
   "property": "C12",
   "status": "proved",
   "theorems": [
    "C12_multi_node_map_equals_single",
    "C12_more_partners_abort"
   ],
   "note": "QMP message passing is modelled as matched send/receive pairs; unmatched pairs are an undefined outcome, shown not to occur."
  },
  {
   "property": "C13",
   "status": "proved",
   "theorems": [
    "C13_neighbour_maps_never_abort",
    "C13_multi_node_shift_value"
   ],
   "note": "All multi-node layouts (lexicographic, 2- and 3d-checkerboard)."
  },
  {
   "property": "C14",
   "status": "proved",
   "theorems": [
    "C14_dispatch_covers_exactly",
    "C14_dispatch_in_order"
   ],
   "note": ""
  },
  {
   "property": "C15",
   "status": "proved",
   "theorems": [
    "C15_assignment_exact",
    "C15_parallel_for_exact",
    "C15_evaluate_F_exact"
   ],
   "note": "Small-step interleaving of per-thread loops with separate read and write steps; expressions read their own site only (shifts of the destination are C57)."
  },
  {
   "property": "C16",
   "status": "proved",
   "theorems": [
    "C16_dispatch_overflow_refuted",
    "C16_dispatch_no_overflow_below"
   ],
   "note": "The property is FALSE of the code: whenever sites*threads exceeds 2^31-1 the last thread multiplies with signed overflow. Proved: exact bounds below that."
  },
  {
   "property": "C17",
   "status": "proved",
   "theorems": [
    "C17_sum_schedule_independent",
    "C17_array_sum_schedule_independent",
    "C17_sumMulti_per_subset",
    "C17_sumMulti_array",
    "C17_nodes_add_up"
   ],
   "note": "Over any commutative monoid (floating-point rounding is not modelled)."
  },
  {
   "property": "C18",
   "status": "proved",
   "theorems": [
    "C18_ring_same_on_all_nodes",
    "C18_ring_is_the_sum"
   ],
   "note": "Bit-identity holds for any addition, associative or not."
  },
  {
   "property": "C19",
   "status": "proved",
   "theorems": [
    "C19_global_extremum",
    "C19_global_extremum_nodes"
   ],
   "note": "For comparisons that are strict weak orders (no NaN)."
  },
  {
   "property": "C20",
   "status": "proved",
   "theorems": [
    "C20_seed_product",
    "C20_seed_from_int",
    "C20_seed_shift",
    "C20_seed_or",
    "C20_seed_compare",
    "C20_seed_representation"
   ],
   "note": "Shifts up to 12 bits, as the code comments restrict. Converting an int keeps its value modulo 2^36."
  },
  {
   "property": "C21",
   "status": "proved",
   "theorems": [
    "C21_site_multipliers",
    "C21_large_lattice_refuted"
   ],
   "note": "Lattices below 2^30 sites. For 2^30 or more sites (e.g. 128^3 x 512) the initialisation overflows a signed int."
  },
  {
   "property": "C22",
   "status": "proved",
   "theorems": [
    "C22_lattice_draw",
    "C22_history",
    "C22_gaussian"
   ],
   "note": "Any sound layout, node, thread distribution and interleaving; conversion to floating point is a parameter."
  },
  {
   "property": "C23",
   "status": "proved",
   "theorems": [
    "C23_streams_distinct",
    "C23_period",
    "C23_history_distinct"
   ],
   "note": "For odd starting seeds; period is exactly 2^45."
  },
  {
   "property": "C24",
   "status": "proved",
   "theorems": [
    "C24_replay"
   ],
   "note": ""
  },
  {
   "property": "C25",
   "status": "proved",
   "theorems": [
    "C25_exact_in_unit_interval",
    "C25_single_precision_refuted",
    "C25_double_precision_refuted",
    "C25_one_is_reached",
    "C25_positive"
   ],
   "note": "The property is FALSE in floating point: the number rounds to exactly 1 for the topmost seeds, and such a seed is reached from the default seed. True in exact arithmetic. From a seed other than 0 no number is ever 0 in either precision, so the logarithm in gaussian is finite."
  },
  {
   "property": "C26",
   "status": "proved",
   "theorems": [
    "C26_empty_node_refuted",
    "C26_nodes_agree"
   ],
   "note": "The property is FALSE if a node owns no site of the subset; proved otherwise."
  },
  {
   "property": "C27",
   "status": "proved",
   "theorems": [
    "C27_uninitialised_refuted",
    "C27_seed_after_fill"
   ],
   "note": "The property is FALSE in the single-process architecture with more threads than sites; proved when every thread has an iteration."
  },
  {
   "property": "C28",
   "status": "proved",
   "theorems": [
    "C28_not_the_documented_generator_refuted",
    "C28_low_bits",
    "C28_range"
   ],
   "note": "The property is FALSE: number 306 from the default seed exceeds 1. Proved instead: no overflow, low 36 bits follow the recurrence, numbers below 4396/4096."
  },
  {
   "property": "C29",
   "status": "proved",
   "theorems": [
    "C29_setrn_ignored_refuted",
    "C29_setrn_after_first_number"
   ],
   "note": "The property is FALSE before the first number; proved after it."
  },
  {
   "property": "C30",
   "status": "proved",
   "theorems": [
    "C30_reverses_words",
    "C30_involution",
    "C30_unsupported_size_aborts",
    "C30_loop_ends",
    "C30_large_count_refuted"
   ],
   "note": "Proved for word counts below 2^32. FALSE above: the unsigned int loop counter wraps and the loop never ends."
  },
  {
   "property": "C31",
   "status": "proved",
   "theorems": [
    "C31_standard_crc32",
    "C31_specification_unique",
    "C31_pieces",
    "C31_generated_table"
   ],
   "note": "Specification: polynomial division over GF(2)."
  },
  {
   "property": "C32",
   "status": "proved",
   "theorems": [
    "C32_changed_bytes_detected",
    "C32_burst_detected",
    "C32_two_bits_detected"
   ],
   "note": "Also any two flipped bits less than 2^32-1 apart."
  },
  {
   "property": "C33",
   "status": "proved",
   "theorems": [
    "C33_files_round_trip",
    "C33_round_trip_anywhere",
    "C33_file_independent_of_byte_order",
    "C33_words_stored_big_endian",
    "C33_little_endian_read"
   ],
   "note": "Primitives, strings, sequences, multi1d-multi5d, multiNd, maps, pairs, nested in any way."
  },
  {
   "property": "C34",
   "status": "proved",
   "theorems": [
    "C34_strings_round_trip_iff",
    "C34_newline_refuted",
    "C34_desc_round_trip"
   ],
   "note": "The property is FALSE for strings with a newline, a NUL or maxBytes or more characters; exact condition proved. writeDesc/readDesc round-trip every string."
  },
  {
   "property": "C35",
   "status": "proved",
   "theorems": [
    "C35_file_contents",
    "C35_file_read",
    "C35_files_portable"
   ],
   "note": "For every layout except the 3-d checkerboard one (C36), single-process and multi-node builds and both byte orders. strip_room excludes the overrun of C62."
  },
  {
   "property": "C36",
   "status": "proved",
   "theorems": [
    "C36_other_files_refuted",
    "C36_own_files_elsewhere_refuted",
    "C36_crossing_nodes_refuted",
    "C36_time_fastest",
    "C36_own_files"
   ],
   "note": "FALSE of the code: 3-d checkerboard builds write with time fastest, so files are permuted when exchanged with other builds; with time distributed over nodes they do not even read their own files (witness). Positive: the exact order, and own files when runs of sites stay on one node."
  },
  {
   "property": "C37",
   "status": "proved",
   "theorems": [
    "C37_write_time_slice",
    "C37_read_time_slice",
    "C37_invalid_time",
    "C37_write_subset",
    "C37_read_subset",
    "C37_write_site",
    "C37_read_site",
    "C37_time_slice_3d_refuted"
   ],
   "note": "All layouts except 3-d checkerboard, where time slices are wrong (witness C37_time_slice_3d_refuted). Multi-node time slices need at least two dimensions."
  },
  {
   "property": "C38",
   "status": "proved",
   "theorems": [
    "C38_peek",
    "C38_peek_poke"
   ],
   "note": ""
  },
  {
   "property": "C39",
   "status": "proved",
   "theorems": [
    "C39_finite_map"
   ],
   "note": "Any traversal order of the hash table; keys distinguished by their serialised form."
  },
  {
   "property": "C40",
   "status": "proved",
   "theorems": [
    "C40_sessions",
    "C40_new_key_after_get_refuted",
    "C40_longer_update_refuted"
   ],
   "note": "FALSE of the code in general: a new key after a get or update overwrites the next record (general theorem), a longer update overruns it (witness). C40_sessions proves the property for all histories satisfying the exact side conditions, over any number of sessions and machines."
  },
  {
   "property": "C41",
   "status": "proved",
   "theorems": [
    "C41_write_only"
   ],
   "note": "Any list of distinct keys whose sizes fit 63-bit positions."
  },
  {
   "property": "C42",
   "status": "proved",
   "theorems": [
    "C42_before_first_flush",
    "C42_after_flush",
    "C42_after_close",
    "C42_truncated_header_refuted",
    "C42_torn_update_refuted"
   ],
   "note": "Proved for crashes in insert and in the key map of flush when only new keys were inserted since the last flush. FALSE when the header itself is cut short (uninitialised read, general theorem) and for a torn in-place update (checksum collision witness). A crash inside the 16-byte link write is not covered."
  },
  {
   "property": "C43",
   "status": "proved",
   "theorems": [
    "C43_reconstruct",
    "C43_third_row",
    "C43_three_rows"
   ],
   "note": "Over every commutative ring; the condition det = 1 is shown to be necessary and sufficient among unitary matrices. Rounding is not modelled."
  },
  {
   "property": "C44",
   "status": "proved",
   "theorems": [
    "C44_checksum",
    "C44_checksum_everywhere",
    "C44_written",
    "C44_read",
    "C44_archive",
    "C44_archive_exact"
   ],
   "note": "Payload and whole archive, all builds. Conversions between the lattice number type and 32/64-bit words are parameters (narrow, cast), printing and reading of a real number are parameters (show, strtod), as are the plaquette and its comparison; the reader refuses the archive if they differ. Archives of 3-d checkerboard builds have another order of sites (as C36), so writer and reader must agree on that."
  },
  {
   "property": "C45",
   "status": "proved",
   "theorems": [
    "C45_header",
    "C45_any_header",
    "C45_repeated_size_refuted",
    "C45_three_rows_refuted",
    "C45_long_line_refuted",
    "C45_xml_checksum_refuted"
   ],
   "note": "FALSE as stated. Proved: exactly what is read back. Lattice size, checksum and sequence number survive; the format is always written as 2 rows in 32 bits, so three-row archives cannot be read back; boundary conditions are written as text and never parsed, the variable of the reader keeps its old value; leading blanks of texts are dropped; a line of 128 characters or more (e.g. a long host description) makes the archive unreadable; the checksum in the XML form is written in hexadecimal and read as decimal."
  },
  {
   "property": "C46",
   "status": "proved",
   "theorems": [
    "C46_order",
    "C46_empty_refuted"
   ],
   "note": "The comparison operators are the lexicographic order for arrays with at least one element; FALSE for empty arrays, which do not equal themselves (and so for arrays containing empty arrays)."
  },
  {
   "property": "C47",
   "status": "proved",
   "theorems": [
    "C47_indexing"
   ],
   "note": ""
  },
  {
   "property": "C48",
   "status": "proved",
   "theorems": [
    "C48_packed",
    "C48_agreement",
    "C48_refuted"
   ],
   "note": "Indexing with an array of indices proved; FALSE for a(i,j), a(i,j,k), a(i,j,k,l), which agree with it only for the shapes stated."
  },
  {
   "property": "C49",
   "status": "proved",
   "theorems": [
    "C49_values",
    "C49_no_leak",
    "C49_self_assignment_refuted",
    "C49_multiNd",
    "C49_multiNd_refuted",
    "C49_concat"
   ],
   "note": "Proved for every program without self-assignment of arrays of rank 2 and more; FALSE with it (the elements are lost). Copying a default-constructed multiNd is undefined behaviour."
  },
  {
   "property": "C50",
   "status": "proved",
   "theorems": [
    "C50_default",
    "C50_alignment_refuted",
    "C50_size_refuted",
    "C50_pool",
    "C50_pool_unknown_refuted"
   ],
   "note": "Default allocator proved for power-of-two alignments and sizes below 2^64-A; FALSE otherwise. The pool allocator does not notice unknown pointers and returns null on its first failure."
  },
  {
   "property": "C51",
   "status": "proved",
   "theorems": [
    "C51_uniquify_list"
   ],
   "note": ""
  },
  {
   "property": "C52",
   "status": "proved",
   "theorems": [
    "C52_generators",
    "C52_traces",
    "C52_vector",
    "C52_left",
    "C52_right",
    "C52_elements",
    "C52_products",
    "C52_group",
    "C52_clifford",
    "C52_columns",
    "C52_associative",
    "C52_right_group",
    "C52_hermitian",
    "C52_unitary",
    "C52_runtime",
    "C52_runtime_refuted"
   ],
   "note": "All products in both bases. FALSE only in that the run-time form Gamma(m) accepts any int and is undefined outside 0..15."
  },
  {
   "property": "C53",
   "status": "proved",
   "theorems": [
    "C53_project_reconstruct",
    "C53_reconstruct_project",
    "C53_abort",
    "C53_chiral",
    "C53_project_kernels",
    "C53_reconstruct_kernels",
    "C53_add_reconstruct_kernels"
   ],
   "note": "Functions of qdp_primspinvec.h and the 24 unrolled kernels. Exact arithmetic."
  },
  {
   "property": "C54",
   "status": "proved",
   "theorems": [
    "C54_color_contract",
    "C54_quark_contract_color",
    "C54_quark_contract",
    "C54_trace",
    "C54_vectors",
    "C54_vector_contract",
    "C54_determinant",
    "C54_gauge",
    "C54_documented24_refuted"
   ],
   "note": "Proved; the documented formula for quarkContract24 is not what is computed (and is a copy of the one for quarkContract14)."
  },
  {
   "property": "C55",
   "status": "proved",
   "theorems": [
    "C55_real_kernels",
    "C55_complex_kernels",
    "C55_projected_kernels",
    "C55_gamma5_kernels",
    "C55_sum_kernels",
    "C55_norm_kernels",
    "C55_spin_parts",
    "C55_su3_products",
    "C55_su3_vectors"
   ],
   "note": "Exact arithmetic (any commutative ring); the result of a 3x3 product must not overlap an operand (see C78)."
  },
  {
   "property": "C56",
   "status": "proved",
   "theorems": [
    "C56_low_dimensions_refuted",
    "C08_default_sets"
   ],
   "note": "The property is FALSE for one and two dimensions (every non-empty lattice aborts); for three or more dimensions C08_default_sets shows initDefaultSets succeeds."
  },
  {
   "property": "C57",
   "status": "proved",
   "theorems": [
    "C57_shift_in_place_refuted",
    "C57_shift_into_other_field",
    "C13_multi_node_shift_value"
   ],
   "note": "The property is FALSE in the single-process architecture (witness run); the multi-node shift builds a temporary and is covered by C13."
  },
  {
   "property": "C58",
   "status": "proved",
   "theorems": [
    "C58_any_site",
    "C58_all_sites"
   ],
   "note": ""
  },
  {
   "property": "C59",
   "status": "proved",
   "theorems": [
    "C59_buffer_checksum_refuted",
    "C59_other_checksums_defined"
   ],
   "note": "The property is FALSE for buffers constructed from a string: the checksum is uninitialised. Proved for all others."
  },
  {
   "property": "C60",
   "status": "proved",
   "theorems": [
    "C60_file_readwriter",
    "C60_buffer_seek_ignored_refuted",
    "C60_buffer_witness_refuted"
   ],
   "note": "Proved for files. FALSE for buffers: seek moves only the reading position."
  },
  {
   "property": "C61",
   "status": "proved",
   "theorems": [
    "C61_clear_keeps_contents_refuted"
   ],
   "note": "The property is FALSE: clear() keeps the contents and positions."
  },
  {
   "property": "C62",
   "status": "proved",
   "theorems": [
    "C62_small_site_refuted",
    "C37_write_site",
    "C35_file_contents"
   ],
   "note": "FALSE of the code: the clear-to-send message is four bytes long and is received into the data buffer, which is shorter for one-byte elements. The positive theorems give the exact condition (site_room, strip_room)."
  },
  {
   "property": "C63",
   "status": "proved",
   "theorems": [
    "C63_extract",
    "C63_insert_extract",
    "C63_compact_array_refuted"
   ],
   "note": "A compact array of numSiteTable() elements is overrun."
  },
  {
   "property": "C64",
   "status": "proved",
   "theorems": [
    "C64_division_traps_refuted",
    "C64_positions_converted",
    "C64_default_mode_refuted"
   ],
   "note": "FALSE where integer division by zero traps (x86). True where it delivers zero (ARM)."
  },
  {
   "property": "C65",
   "status": "proved",
   "theorems": [
    "C65_object_reuse_refuted",
    "C65_new_object"
   ],
   "note": "FALSE for a reused object; proved for a new one."
  },
  {
   "property": "C66",
   "status": "proved",
   "theorems": [
    "C66_read_only_insert_refuted",
    "C66_closed_object"
   ],
   "note": "FALSE of the code for files opened read-only."
  },
  {
   "property": "C67",
   "status": "proved",
   "theorems": [
    "C67_several_files",
    "C67_file_exists_refuted",
    "C67_second_close_refuted"
   ],
   "note": "get, exist, keys and user data proved; FALSE for fileExists before open, and a second close is undefined behaviour."
  },
  {
   "property": "C68",
   "status": "proved",
   "theorems": [
    "C68_scalar_operand_refuted",
    "C49_values"
   ],
   "note": "FALSE of the code when the scalar is an element of the array that is not its last; C49_values covers every other scalar."
  },
  {
   "property": "C69",
   "status": "proved",
   "theorems": [
    "C69_part_refuted",
    "C49_values"
   ],
   "note": "Proved for rows of a multi2d (statement SRow of C49_values); FALSE for higher ranks, which always abort."
  },
  {
   "property": "C70",
   "status": "proved",
   "theorems": [
    "C70_norm2",
    "C70_empty_refuted"
   ],
   "note": "FALSE for an empty array (undefined behaviour)."
  },
  {
   "property": "C71",
   "status": "proved",
   "theorems": [
    "C71_lattices",
    "C71_pool_refuted"
   ],
   "note": "Proved for the default allocator; FALSE for the pool, where a lattice without memory is constructed."
  },
  {
   "property": "C72",
   "status": "proved",
   "theorems": [
    "C72_ring",
    "C72_generated",
    "C72_mixed",
    "C72_conjugate",
    "C72_times_i",
    "C72_where",
    "C72_divide",
    "C72_divide_real",
    "C72_assign",
    "C72_assign_real"
   ],
   "note": "Exact arithmetic (no rounding)."
  },
  {
   "property": "C73",
   "status": "proved",
   "theorems": [
    "C73_sum",
    "C73_product",
    "C73_product_laws",
    "C73_adjoint",
    "C73_adjoint_product",
    "C73_parts",
    "C73_trace",
    "C73_trace_cyclic",
    "C73_imagTrace",
    "C73_imagTrace_refuted",
    "C73_partial_trace",
    "C73_inner",
    "C73_inner_adjoint",
    "C73_outer"
   ],
   "note": "FALSE for imagTrace of real objects, which is their trace instead of zero. Exact arithmetic."
  },
  {
   "property": "C74",
   "status": "proved",
   "theorems": [
    "C74_rewriting"
   ],
   "note": "One site; gamma matrices and quark contractions are outside the expression language. Exact arithmetic."
  },
  {
   "property": "C75",
   "status": "proved",
   "theorems": [
    "C75_site",
    "C75_isnormal_refuted",
    "C75_one_node",
    "C75_nodes_slack",
    "C75_nodes_refuted",
    "C75_overwrite_refuted"
   ],
   "note": "FALSE for isnormal of matrices, which calls isinf, and on several nodes, where a one-byte flag is combined as a four-byte word (out of bounds). Proved otherwise."
  },
  {
   "property": "C76",
   "status": "proved",
   "theorems": [
    "C76_in_bounds",
    "C76_over_read_refuted"
   ],
   "note": "Proved for 31 vector kernels; FALSE for seven g5ProjPlus kernels, which load one or two reals behind the last site."
  },
  {
   "property": "C77",
   "status": "proved",
   "theorems": [
    "C77_specialised_evaluate",
    "C77_built_subsets",
    "C77_exact_arrays_refuted"
   ],
   "note": "All 83 specialisations; the seven g5ProjPlus forms need one or two readable reals behind the operand (slack), which C77_exact_arrays_refuted shows to be necessary. Exact arithmetic; thread calls run in any order, not interleaved."
  },
  {
   "property": "C78",
   "status": "proved",
   "theorems": [
    "C78_half_fermion_product",
    "C78_in_place_refuted"
   ],
   "note": "FALSE in place: h = u*h with u = 1 turns (a,b,c) into (a,0,0). Proved when the destination is another field."
  },
  {
   "property": "C79",
   "status": "proved",
   "theorems": [
    "C79_volume",
    "C79_site_number",
    "C79_coordinates",
    "C79_coordinate_sum"
   ],
   "note": "Int arithmetic with overflow undefined. From 2^31 sites on the volume computed by Layout::create overflows, also when the sites are spread over nodes."
  },
  {
   "property": "C80",
   "status": "proved",
   "theorems": [
    "C80_subsets",
    "C80_whole_lattice",
    "C80_on_the_lattice",
    "C80_arrays",
    "C80_array_lengths_refuted"
   ],
   "note": "Over every commutative ring, so rounding is not covered. Arrays of different lengths are not rejected: a longer second array is cut off, a shorter one is read behind its end (C80_array_lengths_refuted)."
  },
  {
   "property": "C81",
   "status": "proved",
   "theorems": [
    "C81_programs",
    "C81_all_freed",
    "C81_same_subset",
    "C81_other_subset_refuted",
    "C81_view_assign_refuted",
    "C81_sum",
    "C81_inner_product",
    "C81_sum_view",
    "C81_sum_view_refuted",
    "C81_poke_owner_refuted",
    "C81_scalar_refuted"
   ],
   "note": "Proved for programs without sums of views, pokes and scalars. FALSE: sum(a[s]) adds the first numSiteTable() sites in memory instead of those of s; x = y for different subsets of equal size moves values to other sites without complaint; a[s] = b[s] stops the program; pokeColor/pokeSpin into a sub-lattice with its own memory write outside it; assignments to scalar[s] read an uninitialised member. Right-hand sides without shifts, one thread."
  },
  {
   "property": "C82",
   "status": "proved",
   "theorems": [
    "C82_blocks",
    "C82_master",
    "C82_count",
    "C82_no_grid",
    "C82_count_refuted",
    "C82_zero_extent_refuted"
   ],
   "note": "FALSE as to the number of I/O nodes, which can be smaller than asked for (3 on a line of 4 nodes gives 2), and as to rejection: an extent of zero is accepted and every node then divides by zero. Proved otherwise."
  },
  {
   "property": "C83",
   "status": "proved",
   "theorems": [
    "C83_lattice",
    "C83_hypercube",
    "C83_corners",
    "C83_array",
    "C83_scalars",
    "C83_one_scalar",
    "C83_buffer",
    "C83_size",
    "C83_other_lattice",
    "C83_short",
    "C83_array_length",
    "C83_kinds_refuted",
    "C83_array_as_lattice_refuted"
   ],
   "note": "The QIO library is a contract stated in QioModel.v. FALSE as to records that do not fit: only the number of bytes per site is compared, so integers are read as floats and the reverse, and an array of n lattices read into one lattice of as many bytes per site is copied out of bounds. Outside a hypercube floating point lattices are set to zero while integer lattices keep their values (C83_hypercube)."
  },
  {
   "property": "C84",
   "status": "proved",
   "theorems": [
    "C84_array_format",
    "C84_format",
    "C84_typed_format",
    "C84_array_read",
    "C84_read",
    "C84_lattice",
    "C84_array",
    "C84_same_build",
    "C84_typed_read",
    "C84_typed",
    "C84_colmats",
    "C84_maintain",
    "C84_other_lattice",
    "C84_real_refuted",
    "C84_small_refuted",
    "C84_F3_refuted",
    "C84_one_colmat_refuted",
    "C84_split_refuted",
    "C84_other_type_refuted",
    "C84_float_refuted",
    "C84_double_refuted",
    "C84_qlua_refuted",
    "C84_cb3d_refuted"
   ],
   "note": "Proved for objects of two or more words of the build's precision, where the parts of 2 GB divide a node's extent (cuts) and, for different builds, layouts other than the 3-d checkerboard. FALSE otherwise: fields of one word (LatticeReal) and single-precision colour matrices cannot be read back, integers are written from an empty buffer in double-precision builds, fields of the other precision are destroyed, rows are lost when the parts do not divide the extent, a smaller dataset is read beyond its end, an array of one colour matrix is read out of bounds, writeQlua/readQlua reverse the coordinates, 3-d checkerboard builds permute the sites. HDF5 is a contract stated in Hdf5Model.v."
  },
  {
   "property": "C85",
   "status": "proved",
   "theorems": [
    "C85_cd",
    "C85_cd_root",
    "C85_cd_missing",
    "C85_cd_here",
    "C85_return",
    "C85_pop",
    "C85_push",
    "C85_mkdir",
    "C85_exists",
    "C85_kept",
    "C85_write",
    "C85_round_trip",
    "C85_types",
    "C85_missing",
    "C85_write_refused",
    "C85_write_no_group",
    "C85_delete",
    "C85_attribute",
    "C85_attribute_refused",
    "C85_attribute_missing",
    "C85_cd_self_refuted",
    "C85_root_attribute_refuted",
    "C85_scalar_of_array_refuted",
    "C85_string_zero_refuted",
    "C85_lost_refuted",
    "C85_colmat_refuted",
    "C85_small_object_refuted",
    "C85_precision_refuted",
    "C85_empty_objects_refuted",
    "C85_dotdot_refuted",
    "C85_push_blocked_refuted",
    "C85_attribute_destroyed_refuted",
    "C85_attribute_lost_refuted",
    "C85_overwrite_refuted",
    "C85_qlua_group_refuted",
    "C85_qlua_deletes_refuted",
    "C85_qlua_blocked_refuted"
   ],
   "note": "HDF5 itself is a contract stated in H5DirModel.v. Proved for properly spelled names. FALSE as to: cd to the working group by another name than pwd's (\".\", a trailing slash), which never returns; attributes of the root group (undefined); a scalar read of a longer array (overrun); strings with zero bytes (cut); numbers, strings and complex numbers written into a missing group and strings under a taken name (silently lost); ColorMatrix (cannot be read back); objects smaller than REAL, empty arrays of objects, objects of doubles read by a single precision build (undefined); push(\"..\") (makes a group of that name) and push through a dataset (stops half way silently); attributes that are too long (old one destroyed, or silently lost); writeQlua (other working group afterwards, deletes the whole group)."
  },
  {
   "property": "C86",
   "status": "proved",
   "theorems": [
    "C86_round_trip",
    "C86_format",
    "C86_number",
    "C86_missing",
    "C86_absent",
    "C86_char",
    "C86_twice",
    "C86_words",
    "C86_bad_refused",
    "C86_map_merge",
    "C86_map_object_merge",
    "C86_list_refuted",
    "C86_tail_dropped_refuted",
    "C86_unsigned_refuted",
    "C86_glued_refuted",
    "C86_seed_short_refuted"
   ],
   "note": "Integers, bools, characters and strings; floating point text is C89. libxml2, BasicXPathReader and XMLSimpleWriter are contracts stated in XmlModel.v. FALSE as to: std::list of anything but numbers, which always reads back empty; number lists ending in a lone sign or an out-of-range number, whose tail is silently dropped, and std::list of numbers, silently truncated at the first bad word; negative numbers for unsigned types (wrap around); \"1-2\", read as two numbers; seeds with fewer than four elements (read out of bounds)."
  },
  {
   "property": "C87",
   "status": "proved",
   "theorems": [
    "C87_primary",
    "C87_agree",
    "C87_read",
    "C87_sequence",
    "C87_optional",
    "C87_list_refused",
    "C87_alone_refuted",
    "C87_shift_refuted",
    "C87_wait_refuted",
    "C87_size_refuted"
   ],
   "note": "Proved for programs none of whose queries fail (also with count() asked first), and for lists of numbers with a bad text, which are refused everywhere. FALSE when a query fails: the exception is thrown on the primary node only. The other nodes wait; if the program catches the exception and goes on, they take the next value read for the missing one, or take part in a broadcast of another size. QMP_broadcast is a contract stated in XmlNodesModel.v."
  },
  {
   "property": "C88",
   "status": "proved",
   "theorems": [
    "C88_options",
    "C88_options_one",
    "C88_help",
    "C88_life",
    "C88_start_twice",
    "C88_parallel_safe",
    "C88_reported_refuted",
    "C88_message_refuted",
    "C88_missing_refuted",
    "C88_pool_refuted",
    "C88_stop_twice_refuted"
   ],
   "note": "Proved for every line made of complete options and other arguments, in both builds, and for every alternating history. FALSE: a line with a missing or malformed argument is never reported, the outcome is undefined (the check for a missing argument comes after the null pointer has been given to sscanf; numbers that were not read are used); a pool size that is not a number is passed over in silence. FALSE in the build for one node: QDP_finalize or QDP_abort after QDP_finalize deletes the same arrays again. The parallel build has no undefined history."
  },
  {
   "property": "C89",
   "status": "proved",
   "theorems": [
    "C89_near",
    "C89_exact",
    "C89_stable",
    "C89_stable_unless_power",
    "C89_typed",
    "C89_whole",
    "C89_text_file",
    "C89_text_file_stable",
    "C89_array",
    "C89_array_stable",
    "C89_same_text_refuted",
    "C89_float_drifts_refuted",
    "C89_float_typed_refuted",
    "C89_largest_refuted",
    "C89_infinite_refuted"
   ],
   "note": "Proved for all finite numbers, with correct rounding of the C++ library as the assumption about it: nearness for the lower half of the range; exactness; stability of 15 digits for double and 6 digits for float, and of any number of digits unless the text is a power of ten. FALSE: different numbers have the same text (1 and the next double); float with the 7 digits that are used drifts (1.00000006e28 is written 1e+28, read and written as 9.999999e+27), and two 7-digit texts can be the same float; the largest double is written as a number that is refused: as the last element it is dropped silently, elsewhere the array cannot be read; infinities and NaN make an array unreadable and cut a list."
  },
  {
   "property": "C90",
   "status": "proved",
   "theorems": [
    "C90_array",
    "C90_wrong_count",
    "C90_never_crosses",
    "C90_empty_refuted",
    "C90_plain_elements_refuted",
    "C90_left_early_refuted",
    "C90_outlived_refuted",
    "C90_unnamed_refuted"
   ],
   "note": "Proved for every array of one or more elements and every content, for pop and for the destructor; every sequence of calls keeps the tags nested. FALSE for the empty array (pop ends the program whatever the size; destroyed instead, the document stays incomplete), for numbers, strings and arrays written as elements without push (not counted, pop ends the program), for an element left by an exception (the destructor ends the program), for an array whose writer outlives the group it is in (tags cross), and for push without a name as the start, as the manual has it (a tag without name)."
  },
  {
   "property": "C91",
   "status": "proved",
   "theorems": [
    "C91_round_trip",
    "C91_nodes_agree",
    "C91_word",
    "C91_seed",
    "C91_parts_refuted",
    "C91_buffer_again_refuted",
    "C91_buffer",
    "C91_buffer_text_refuted",
    "C91_files",
    "C91_open_twice_refuted"
   ],
   "note": "Proved for all values and programs of reads, with the exact set of words that text can carry. FALSE: complex numbers, vectors and matrices are written with nothing between the parts, so that for whole numbers the text can never be read back ((1,2) is \"12\"); a TextBufferReader read to its end fails on every text it is opened on later; a TextBufferWriter given a text writes over it from the start; a text or binary file writer opened on a second file while the first is open goes on silently and loses everything written from there on."
  },
  {
   "property": "C92",
   "status": "proved",
   "theorems": [
    "C92_exact",
    "C92_one_step",
    "C92_order_refuted"
   ],
   "note": "Exact for all types and orders: right exactly when the members of inner types are initialised first, 0 otherwise. Types with at most one member set from another (fermions, propagators, the number of colours of colour matrices) are right in every order. FALSE for the rest: for every type with two or more such members (number of spins of colour matrices, of colours of spin matrices, both of real and complex numbers) there is an order that writes 0."
  },
  {
   "property": "C93",
   "status": "proved",
   "theorems": [
    "C93_watch",
    "C93_watch_good",
    "C93_watch_back_refuted",
    "C93_watch_failed_refuted",
    "C93_report",
    "C93_section",
    "C93_level_refuted",
    "C93_unmatched",
    "C93_printed_refuted"
   ],
   "note": "Stopwatch exact for all histories and clock readings; bounds for a clock that does not run backwards. FALSE: a clock reading that fails at either end makes the total undefined (calcDuration returns without setting the values stop adds up); a clock set back within a second makes the total go down. Profile: counts and times exact for all histories. FALSE: leaving a section leaves its level in force (popProfileInfo reads the top of the stack before removing it); after a section is left expressions are still listed under it; after printProfile the first new expression ends the program."
  },
  {
   "property": "C94",
   "status": "proved",
   "theorems": [
    "C94_converted",
    "C94_meaning",
    "C94_word",
    "C94_defined",
    "C94_missing_refuted",
    "C94_where_refuted",
    "C94_number_refuted"
   ],
   "note": "Proved for every expression that compiles: the value is the one written, with plain numbers converted to the word type of the first operand beside them that is no plain number; every mixture compiles unambiguously except three. FALSE: where and colorContract of two expressions and a number (in the last two places), or of a number and two fields, do not compile; where(mask, 5, 7) is 1 everywhere, because the numbers take the word type of the mask (with a real field as the other operand the bool version does not compile at all: the overloads of include/qdp_simpleword.h 341-358 are ambiguous, which is not part of the model); 2.5 beside an integer field is 2. The types of results (UnaryReturn, BinaryReturn, TrinaryReturn) are any function of the word types."
  },
  {
   "property": "C95",
   "status": "proved",
   "theorems": [
    "C95_machine",
    "C95_assign",
    "C95_same",
    "C95_imag",
    "C95_imagTrace_refuted",
    "C95_products",
    "C95_inner",
    "C95_inner_single",
    "C95_inner_refuted",
    "C95_norm2",
    "C95_single_refuted",
    "C95_sum",
    "C95_where",
    "C95_casts",
    "C95_toWordType",
    "C95_zero",
    "C95_copymask",
    "C95_only",
    "C95_missing_refuted"
   ],
   "note": "Proved for all functions and types but these. FALSE: imagTrace of a real object is the object; norms and inner products of single precision reals multiply in single precision (4097 has norm 16785408); inner products of integers with reals, where of single with double or integers with reals or two unsigned, setting booleans and unsigned to zero or copying them under a mask, and fmod, ldexp, operator~ and transposeColor of any object in a PScalar do not compile."
  },
  {
   "property": "C96",
   "status": "proved",
   "theorems": [
    "C96_nodes",
    "C96_one",
    "C96_arguments",
    "C96_fetch_refuted",
    "C96_binary_refuted",
    "C96_life",
    "C96_close_again"
   ],
   "note": "Proved for all methods that fetch no contents, and for the others on one node. FALSE: get, getBinary, keys, keysAndData and binaryKeysAndData end the program on more than one node; binaryKeysAndData takes its vectors by value, so that the caller gets nothing on any number of nodes. The destructor always closes, also a database never opened or closed already. The database library (filedb) is not in the repository and is any function."
  },
  {
   "property": "C97",
   "status": "proved",
   "theorems": [
    "C97_follows",
    "C97_reader",
    "C97_shared_refuted",
    "C97_copy_refuted",
    "C97_closed_refuted",
    "C97_assign_refuted",
    "C97_exit_refuted"
   ],
   "note": "Proved for all programs that never have one file open in two objects and do not copy objects. FALSE otherwise: close() closes the groups that other objects have open in the same file (H5Fget_obj_ids without H5F_OBJ_LOCAL); copies share the file, closing one closes both; assignment leaks the file; the functions of a closed object have no meaning (current_group is not reset); an error of one object stops the program without saving what other writers wrote (H5dont_atexit). HDF5 is a contract."
  },
  {
   "property": "C98",
   "status": "proved",
   "theorems": [
    "C98_exact",
    "C98_one_word",
    "C98_reordered_refuted",
    "C98_short",
    "C98_short_exact",
    "C98_short_refuted",
    "C98_empty_refuted"
   ],
   "note": "Proved exactly which files are accepted (C98_exact), that a change within one aligned 32-bit word, in particular of one byte, is always refused, and that single-process builds refuse a file that is cut. FALSE in general: the checksum is a sum, so reordered words are not noticed by it (only, perhaps, by plaquette and link trace); the multi-node reader never tests the stream: a cut file is read exactly as the file completed with what the buffer held, accepted if that has the right sum, and uninitialised memory is used if not even one site can be read."
  },
  {
   "property": "C99",
   "status": "proved",
   "theorems": [
    "C99_product",
    "C99_copy",
    "C99_site",
    "C99_aliased_refuted"
   ],
   "note": "Proved for every statement in which d is not the right operand, nor the left operand under an adjoint. FALSE otherwise, and exactly then: u = v*u, u = adj(u)*v, u += v*u, ... of LatticeColorMatrixD in SSE builds store rows (or columns) of the result before the operands have been read (C99_aliased_refuted: both instruction sets, all assignments, all choices of adjoints); builds without SSE evaluate each site into a temporary and are right (see C15). Exact arithmetic (any commutative ring): rounding and the order of the additions are not modelled; calls of kernels are atomic."
  },
  {
   "property": "C100",
   "status": "proved",
   "theorems": [
    "C100_statement",
    "C100_sum",
    "C100_array",
    "C100_idle_threads",
    "C100_idle_threads_refuted"
   ],
   "note": "Statements: proved for all of them and every aliasing. Sums: proved for listed subsets, for innerProductReal, for arrays, and for ordered subsets with at least as many sites as threads. FALSE for norm2 and innerProduct over an ordered subset with fewer sites than threads: threads without a site make no call (qdp_dispatch.h 41) but their elements of the results array, left over from an earlier sum or never set, are added all the same; C100_idle_threads gives the exact value, C100_idle_threads_refuted a history (norm2 over the lattice, then over one site). Exact arithmetic (any commutative ring), one node, calls of kernels atomic; 1/a in d /= a is a given number."
  },
  {
   "property": "C101",
   "status": "proved",
   "theorems": [
    "C101_follows",
    "C101_reopen",
    "C101_eof_refuted",
    "C101_eof_expected",
    "C101_reopen_refuted",
    "C101_closed_refuted",
    "C101_bad_refuted",
    "C101_close_refuted",
    "C101_copy_refuted"
   ],
   "note": "Proved for all careful programs: open only closed objects, use only open ones, ask eof() and bad() only while they have an answer, copy none, every close succeeds. FALSE otherwise: open() of an open writer forgets its handle, and the first file is never finished whatever the program does (C101_reopen, for all programs); eof() is always false, so that a loop until eof() is stopped by QDP_abort in every file; iostate is not initialised, and bad() is true after a close without errors; reads and writes do not ask is_open() and use dead or uninitialised handles; the status of QIO_close_write is ignored; copies close the file twice. QIO is a contract; the file metadata and the contents of records (C83) are left out."
  },
  {
   "property": "C102",
   "status": "proved",
   "theorems": [
    "C102_copy",
    "C102_copy_odd",
    "C102_copy_refuted",
    "C102_statement",
    "C102_sum",
    "C102_array",
    "C102_idle_threads",
    "C102_idle_threads_refuted"
   ],
   "note": "Statements: proved for all of them and every aliasing. Assignments of colour matrices: proved for listed subsets and for ordered subsets that begin at an even site. FALSE for ordered subsets that begin at an odd site: a matrix has 72 bytes, and the aligned access to site a faults when a is odd (C102_copy_odd, for all values); rb[1] of a 2x3x3x3 lattice with two checkerboards is one (C102_copy_refuted). Sums: proved for listed subsets, inner products, arrays, and norm2 over ordered subsets with at least as many sites as threads. FALSE for norm2 over an ordered subset with fewer sites than threads, which adds stale results (C102_idle_threads gives the exact value). Exact arithmetic, one node, calls of kernels atomic, fields aligned to 16 bytes; products of colour matrices, which call an external library, are not modelled."
  },
  {
   "property": "C103",
   "status": "proved",
   "theorems": [
    "C103_project",
    "C103_reconstruct",
    "C103_add",
    "C103_clifford",
    "C103_round_trip",
    "C103_empty_refuted"
   ],
   "note": "Proved for all 24 functions and 1 to 2^32 sites, and that projection followed by reconstruction is 1 +- gamma (no factor 1/2, against the comments in the headers). The gamma matrices of the specification are shown to satisfy the Clifford relations. FALSE for no sites: n_vec - 1 is unsigned, so that a call with n_vec = 0 leaves every array of less than 2^32 numbers (C103_empty_refuted). Exact arithmetic; source and destination in different arrays, aligned to 16 bytes; prefetches left out."
  },
  {
   "property": "C104",
   "status": "proved",
   "theorems": [
    "C104_main",
    "C104_one_object",
    "C104_alive",
    "C104_careful",
    "C104_dead_reference_refuted",
    "C104_phoenix_refuted"
   ],
   "note": "Proved for all programs: one object per singleton in main, only living objects returned, nothing destroyed twice, also during exit and when the program is terminated; calls in main return if constructors do not call Instance in circles. All DefaultLifetime objects are destroyed in reverse order if destructors use only what the constructor used or what is never destroyed (C104_careful). FALSE without that: a destructor that uses a singleton made later ends the program by an exception during exit (C104_dead_reference_refuted), and a PhoenixSingleton made anew during exit is not destroyed unless ATEXIT_FIXED is defined (C104_phoenix_refuted). One thread; SingletonWithLongevity is left out since its helpers are defined nowhere."
  },
  {
   "property": "C105",
   "status": "proved",
   "theorems": [
    "C105_written",
    "C105_numbers",
    "C105_portable",
    "C105_cb3d_refuted"
   ],
   "note": "Proved for all builds, fields and nestings, whatever nodes that pass messages on find in their buffers. FALSE of 3-d checkerboard builds as to the numbers (attribute site) and the order, which have time running fastest (C105_cb3d_refuted); coordinates are right there, too (C105_written). XMLSimpleWriter and the routing of messages are contracts; texts of numbers are C86 and C89; an attribute stands for the numbers in it."
  },
  {
   "property": "C106",
   "status": "proved",
   "theorems": [
    "C106_value",
    "C106_gauge_invariant",
    "C106_overflow",
    "C106_large_refuted",
    "C106_archive",
    "C106_cold",
    "C106_pure_gauge"
   ],
   "note": "Proved over any commutative ring with a division without laws, for every build, when volume*Nd*(Nd-1)*Nc is less than 2^31 and Nd is at least 2. FALSE of larger lattices: the product is computed in int and overflows (C106_overflow), e.g. for 64^3 x 256 with three colours, although the volume fits an int (C106_large_refuted). C106_archive puts mesplq into the model of archives (C44): a configuration of SU(3) matrices of single precision written by one build passes all checks of every other. The unit configuration has plaquette and link 1 (C106_cold), its gauge transforms plaquette 1 (C106_pure_gauge), for numbers where division undoes multiplication. Rounding is not modelled; the order of the sum over nodes is fixed."
  }
 ]
}