{
 "claims": [
  {
   "property": "C01",
   "status": "proved",
   "theorems": [
    "C01_elements_disjoint"
   ],
   "note": ""
  },
  {
   "property": "C02",
   "status": "proved",
   "theorems": [
    "C02_elements_inside_buffer",
    "C02_buffer_tiled",
    "C02_byte_size"
   ],
   "note": ""
  },
  {
   "property": "C03",
   "status": "proved",
   "theorems": [
    "C03_unit_stride",
    "C03_array_slot_stride"
   ],
   "note": ""
  },
  {
   "property": "C04",
   "status": "proved",
   "theorems": [
    "C04_gen_index_bijective",
    "C04_gen_index_order"
   ],
   "note": ""
  },
  {
   "property": "C05",
   "status": "proved",
   "theorems": [
    "C05_relative_coordinates",
    "C05_neighbours_move",
    "C05_increment"
   ],
   "note": ""
  },
  {
   "property": "C06",
   "status": "proved",
   "theorems": [
    "C06_reference_agrees",
    "C06_access_member_agrees"
   ],
   "note": ""
  },
  {
   "property": "C07",
   "status": "proved",
   "theorems": [
    "C07_registered_found",
    "C07_unregistered_throws"
   ],
   "note": "The member pointer types are modelled as tags; the int return type's narrowing is not modelled."
  },
  {
   "property": "C08",
   "status": "proved",
   "theorems": [
    "C08_no_overflow",
    "C08_gen_index_no_overflow",
    "C08_beyond_limit_aliases"
   ],
   "note": "The last theorem is the witness for the 'beyond that limit' clause."
  },
  {
   "property": "C09",
   "status": "proved",
   "theorems": [
    "C09_elements_aligned",
    "C09_default_sizes_aligned",
    "C09_odd_capacity_misaligned"
   ],
   "note": ""
  },
  {
   "property": "C10",
   "status": "proved",
   "theorems": [
    "C10_extents_cover",
    "C10_extents_minimal"
   ],
   "note": ""
  },
  {
   "property": "C11",
   "status": "proved",
   "theorems": [
    "C11_functor_called_once_or_rejected",
    "C11_supported_iff"
   ],
   "note": ""
  },
  {
   "property": "C12",
   "status": "proved",
   "theorems": [
    "C12_const_same_extents",
    "C12_zero_size_differs"
   ],
   "note": "Holds for 1D lists of positive sizes; C12_zero_size_differs shows a listed size of 0 breaks it."
  },
  {
   "property": "C13",
   "status": "proved",
   "theorems": [
    "C13_default_cube",
    "C13_default_square",
    "C13_default_line",
    "C13_flat_y_rejected"
   ],
   "note": ""
  },
  {
   "property": "C14",
   "status": "proved",
   "theorems": [
    "C14_set_get"
   ],
   "note": "Over every reachable state; also says other grids keep their cells."
  },
  {
   "property": "C15",
   "status": "proved",
   "theorems": [
    "C15_set_row",
    "C15_broadcast",
    "C15_get_row"
   ],
   "note": ""
  },
  {
   "property": "C16",
   "status": "proved",
   "theorems": [
    "C16_new_default",
    "C16_constructed_once",
    "C21_resize"
   ],
   "note": "C16_constructed_once is about the list of operations init() performs."
  },
  {
   "property": "C17",
   "status": "proved",
   "theorems": [
    "C17_format_positions",
    "C17_save",
    "C17_load",
    "C17_packed_determines"
   ],
   "note": "Buffer holds live objects when members are of class type (precondition of the code)."
  },
  {
   "property": "C18",
   "status": "proved",
   "theorems": [
    "C18_save_streaks",
    "C18_load_streaks"
   ],
   "note": ""
  },
  {
   "property": "C19",
   "status": "proved",
   "theorems": [
    "C19_copy",
    "C19_assign",
    "C19_self_assign",
    "C19_isolation",
    "C19_assign_empty_refuted"
   ],
   "note": "One corner excluded and refuted separately: assigning a sized 0x0x0 grid to a default-constructed one leaves byte_size unset."
  },
  {
   "property": "C20",
   "status": "partial",
   "theorems": [
    "C20_refuted",
    "C20_copy_extents_unset"
   ],
   "note": "The statement is false of the code: the copy constructor never initialises the extents."
  },
  {
   "property": "C21",
   "status": "proved",
   "theorems": [
    "C21_resize_same",
    "C21_resize"
   ],
   "note": ""
  },
  {
   "property": "C22",
   "status": "partial",
   "theorems": [
    "C22_refuted",
    "C22_failed_resize",
    "C22_unsized_partial"
   ],
   "note": "The statement is false for any grid with storage (C22_failed_resize); proved for grids without storage."
  },
  {
   "property": "C23",
   "status": "partial",
   "theorems": [
    "C23_refuted",
    "C23_swap_partial"
   ],
   "note": "The statement is false of the code; proved for grids with equal y and z dimensions, except extent_y/extent_z."
  },
  {
   "property": "C24",
   "status": "proved",
   "theorems": [
    "C24_refinement"
   ],
   "note": "In-range arguments, swap of grids with equal y/z dims, copies only of grids with storage, resize only to supported dims."
  },
  {
   "property": "C25",
   "status": "proved",
   "theorems": [
    "C24_refinement",
    "C25_live_elements",
    "C25_nothing_left"
   ],
   "note": ""
  },
  {
   "property": "C26",
   "status": "proved",
   "theorems": [
    "C26_symmetric",
    "C26_asymmetric",
    "C26_sees_data"
   ],
   "note": ""
  },
  {
   "property": "C27",
   "status": "partial",
   "theorems": [
    "C27_copy_refuted",
    "C27_assign_refuted",
    "C27_destroy_partial",
    "C27_assign_partial",
    "C27_default_ctor"
   ],
   "note": "False for copying (indeterminate byte_size) and, where 0x0x0 is not supported, for assignment."
  },
  {
   "property": "C41",
   "status": "proved",
   "theorems": [
    "C41_aligned_and_inside",
    "C41_live_blocks"
   ],
   "note": "every allocate/deallocate history over any system allocator returning disjoint blocks: results aligned to ALIGNMENT, inside their chunk, live blocks pairwise disjoint"
  },
  {
   "property": "C42",
   "status": "proved",
   "theorems": [
    "C42_releases_what_it_obtained",
    "C42_chunks_are_live_blocks",
    "C42_null"
   ],
   "note": "each deallocate passes to free exactly the pointer malloc returned for that block; deallocate(0) is a no-op; outstanding chunks are exactly those of live blocks"
  },
  {
   "property": "C43",
   "status": "partial",
   "theorems": [
    "C43_small_alignment_refuted",
    "C43_overflow_refuted",
    "C43_medium_alignment_partial"
   ],
   "note": "the claim as stated is false: ALIGNMENT 1 and 2 store the chunk pointer before the chunk, and every n whose byte count wraps obtains a too small chunk; the case 4 <= ALIGNMENT dividing the chunk alignment is proved"
  },
  {
   "property": "C44",
   "status": "partial",
   "theorems": [
    "C44_macro_exact",
    "C44_macro_partial",
    "C44_function_partial",
    "C44_overrun_refuted",
    "C44_at_most_an_overrun"
   ],
   "note": "The full claim is false when END lies before the first multiple of ARITY after X: the peeled scalar loop then runs past END (witness C44_overrun_refuted). Proved whenever that is not the case."
  },
  {
   "property": "C28",
   "status": "proved",
   "theorems": [
    "C28_history",
    "C28_reads"
   ],
   "note": "every history within the contract (SpecArray.v vpre) runs fault-free and all observations are those of capacity-bounded lists; throwing calls leave the lists unchanged"
  },
  {
   "property": "C29",
   "status": "partial",
   "theorems": [
    "C29_load_partial",
    "C29_wrap_refuted"
   ],
   "note": "proved while offset+n < 2^64 and, for an array loading from itself, unless the target overlaps the source from above; with a wrapping sum the claim is false (C29_wrap_refuted)"
  },
  {
   "property": "C30",
   "status": "partial",
   "theorems": [
    "C30_fill_partial",
    "C30_refuted",
    "C30_huge_count"
   ],
   "note": "n <= N proved; for N < n < 2^31 the constructor writes outside the object for every cell type with a member; for 2^31 <= n < 2^32 nothing is written but size() exceeds capacity()"
  },
  {
   "property": "C31",
   "status": "partial",
   "theorems": [
    "C31_copy_partial",
    "C31_assign_partial",
    "C31_independent",
    "C31_const_copy_refuted",
    "C31_const_copy_trivial",
    "C31_const_assign_trivial"
   ],
   "note": "proved for converting constructors/assignments; false for a const source of the same type with class-type members (implicit bytewise copy); proved for that case when no member is of class type"
  },
  {
   "property": "C32",
   "status": "proved",
   "theorems": [
    "C32_swap"
   ],
   "note": "std::swap of the char array exchanges bytes; class-type members are assumed to survive bytewise relocation, as the code assumes"
  },
  {
   "property": "C33",
   "status": "partial",
   "theorems": [
    "C33_all_alive",
    "C33_nothing_left_partial",
    "C33_throwing_copy_refuted",
    "C28_history"
   ],
   "note": "lifetimes correct in every legal history; what is missing: a converting constructor that throws leaves its constructed elements alive for ever (witness)"
  },
  {
   "property": "C34",
   "status": "proved",
   "theorems": [
    "C34_history",
    "C34_reads",
    "C34_sequence_sizes",
    "C34_sequence"
   ],
   "note": "whatever the calls, as long as the largest storage size is not exceeded (then reserve throws); IEEE rounding of count*1.2 is part of the model"
  },
  {
   "property": "C35",
   "status": "partial",
   "theorems": [
    "C35_refuted",
    "C35_reserved_partial",
    "C35_extent"
   ],
   "note": "false: push_back onto a new vector that was never reserved leaves capacity() behind; holds from the first reserve() on; size() never exceeds the allocated extent"
  },
  {
   "property": "C36",
   "status": "partial",
   "theorems": [
    "C36_refuted",
    "C36_below_capacity_partial",
    "C36_pop"
   ],
   "note": "false between capacity() and the allocated extent, where nothing was constructed; proved below the capacity and for pop_back"
  },
  {
   "property": "C37",
   "status": "partial",
   "theorems": [
    "C37_growth",
    "C37_exact",
    "C37_refuted",
    "C37_full_partial"
   ],
   "note": "false when the storage holds 1..4 cells: count*1.2 truncates to count; proved from five on, including the double rounding"
  },
  {
   "property": "C38",
   "status": "partial",
   "theorems": [
    "C38_copy_partial",
    "C38_assign_partial",
    "C38_copy_use_partial",
    "C38_copy_push_refuted",
    "C38_lost_refuted",
    "C38_independent"
   ],
   "note": "elements beyond capacity() are lost; push_back/reserve on a copy read indeterminate extents; proved when size() <= capacity() for uses that do not enlarge"
  },
  {
   "property": "C39",
   "status": "partial",
   "theorems": [
    "C39_partial",
    "C39_refuted"
   ],
   "note": "proved for n >= size(); for every smaller n whose storage is smaller than the size the copy overruns the new block"
  },
  {
   "property": "C40",
   "status": "partial",
   "theorems": [
    "C40_partial",
    "C40_refuted"
   ],
   "note": "proved when resize exceeds the capacity; within the capacity the old values reappear"
  },
  {
   "property": "C55",
   "status": "partial",
   "theorems": [
    "C39_partial",
    "C55_refuted"
   ],
   "note": "proved for one-dimensional storage (C39_partial); false for sizes with y extent 2 (witness)"
  },
  {
   "property": "C56",
   "status": "proved",
   "theorems": [
    "C56_nothing_left",
    "C56_one_block_each"
   ],
   "note": "histories within the contract"
  },
  {
   "property": "C45",
   "status": "partial",
   "theorems": [
    "C45_each_cell_once_partial",
    "C45_kernels_visit",
    "C45_too_large",
    "C45_refuted",
    "C45_default_grids"
   ],
   "note": "proved for y <= 262140 and z <= 65535 (every grid of the Default size policy is within that); beyond it the device rejects the launch and no cell is handled (witness)"
  },
  {
   "property": "C46",
   "status": "proved",
   "theorems": [
    "C46_construct",
    "C46_destroy",
    "C46_set",
    "C46_get",
    "C46_load",
    "C46_save",
    "C46_no_races",
    "C46_schedules"
   ],
   "note": "for boxes within the launch limits of C45; interleaving at the granularity of element operations"
  },
  {
   "property": "C47",
   "status": "partial",
   "theorems": [
    "C47_is_set",
    "C47_first_cell_partial",
    "C47_refuted"
   ],
   "note": "only the first cell is written, in every schedule; false for n = 2 (witness)"
  },
  {
   "property": "C48",
   "status": "partial",
   "theorems": [
    "C48_refinement_partial",
    "C48_size_capacity",
    "C48_ownership",
    "C48_released",
    "C48_fill_order",
    "C48_fill_refuted",
    "C48_self_assign_refuted"
   ],
   "note": "proved for all histories without self-assignment and without filling 2^31 elements or more at construction; both exceptions are false (witnesses)"
  },
  {
   "property": "C49",
   "status": "proved",
   "theorems": [
    "sv_from_sqrt",
    "sv_sqrt_over",
    "sv_arith_lanewise",
    "sv_arith_self_lanewise",
    "sv_arith_left_lanewise",
    "sv_assign_lanewise",
    "sv_assign_self_lanewise",
    "sv_div_lanewise",
    "sv_div_self_lanewise",
    "sv_div_left_lanewise",
    "sv_sqrt_lanewise",
    "sv_sqrt_int",
    "sv_div_reciprocal",
    "sv_div_neon",
    "sv_div_qpx",
    "sv_div_int_simd",
    "sv_sqrt_neon",
    "sv_sqrt_qpx",
    "sv_div_by_sqrt",
    "sv_div_by_sqrt_int",
    "sv_qpx_mul_assign",
    "sv_qpx_mul_assign_refuted"
   ],
   "note": "proved for all portable classes and, beyond the statement, for the SIMD ones; where a SIMD class computes something else the theorem says what (approximate reciprocals, int through float, QPX *= adds)"
  },
  {
   "property": "C50",
   "status": "partial",
   "theorems": [
    "sv_broadcast",
    "sv_from_registers",
    "sv_index_lane",
    "sv_index_absent",
    "sv_load",
    "sv_store",
    "sv_copy",
    "sv_load_store_qpx",
    "sv_load_qpx_refuted",
    "sv_gather",
    "sv_gather_aligned_offsets",
    "sv_gather_aligned_offsets_needed",
    "sv_gather_refuted",
    "sv_gather_wide_offset_refuted",
    "sv_gather_mic_double_8_refuted",
    "sv_scatter",
    "sv_scatter_aligned_offsets",
    "sv_scatter_memory"
   ],
   "note": "proved for all portable, SSE, AVX, NEON classes and AVX512 double/int at any alignment (SSE4.1/AVX float gather under the condition that the 64 bit register holding an offset equals the offset); false for AVX512 float and MIC gather with offsets not 64 byte aligned, QPX misaligned load, MIC double 8 gather (witnesses)"
  },
  {
   "property": "C51",
   "status": "partial",
   "theorems": [
    "sv_compare",
    "sv_compare_neon",
    "sv_compare_neon_refuted",
    "sv_blend_selects",
    "sv_blend_function",
    "sv_any_mask",
    "sv_get_mask",
    "sv_count_mask",
    "sv_compare_count"
   ],
   "note": "proved for all portable float/double classes, SSE, AVX and AVX512; false for == and <= of short_vec<float,4> on NEON (witnesses)"
  },
  {
   "property": "C52",
   "status": "partial",
   "theorems": [
    "sv_div_assign_same",
    "sv_div_assign_rounds",
    "sv_div_assign_refuted",
    "sv_div_assign_nearest"
   ],
   "note": "true for 75 classes including all portable ones; false for short_vec<int> with 4, 16, 32 lanes on SSE, all of AVX2 and AVX512 (7 / 4 = 1, 7 /= 4 leaves 2); there /= is the nearest integer to the quotient (ties to even), proved for dividends below 2^23"
  },
  {
   "property": "C57",
   "status": "proved",
   "theorems": [
    "sv_arith_lanewise",
    "sv_arith_self_lanewise",
    "sv_arith_left_lanewise",
    "sv_arith_portable"
   ],
   "note": ""
  },
  {
   "property": "C58",
   "status": "partial",
   "theorems": [
    "sv_load",
    "sv_store",
    "sv_copy",
    "sv_load_store_qpx",
    "sv_load_qpx_refuted",
    "sv_aligned_access",
    "sv_aligned_access_needed",
    "sv_store_nt",
    "sv_store_nt_lp64_refuted",
    "sv_strategy_alignment",
    "sv_strategy_alignment_refuted"
   ],
   "note": "load and store proved everywhere but on QPX; the strategy's alignment is too small on MIC and for NEON vectors of 8 lanes and more; store_nt of the AArch64 class writes nothing (witnesses)"
  },
  {
   "property": "C59",
   "status": "partial",
   "theorems": [
    "sv_prints",
    "sv_prints_refuted"
   ],
   "note": "proved for all classes but qpx_double_32, which prints '[' between lanes 15 and 16"
  },
  {
   "property": "C60",
   "status": "partial",
   "theorems": [
    "sv_div_lanewise",
    "sv_div_int_simd",
    "sv_div_int_simd_refuted",
    "sv_sqrt_int",
    "sv_sqrt_int_refuted",
    "sv_div_int_exact",
    "sv_div_int_portable",
    "sv_sqrt_int_portable",
    "sv_sqrt_int_nearest"
   ],
   "note": "true of the portable classes for all ints (but INT_MIN / -1); the SIMD ones divide in single precision: proved exact while both operands are at most 2^24, refuted beyond (16777217 / 1 = 16777216); their square root is the nearest integer instead of the truncated root, proved below 2^22 (sqrt(8) = 3)"
  },
  {
   "property": "C53",
   "status": "partial",
   "theorems": [
    "ilp_fills_registers",
    "ilp_class_registers_partial",
    "ilp_class_registers_refuted",
    "ilp_to_arity_cuda",
    "ilp_to_arity_qpx_mic",
    "streaming_iff_partial",
    "streaming_default",
    "streaming_too_large",
    "streaming_iff_refuted",
    "sibling_switch"
   ],
   "note": "ARITY lanes fill ILP registers of the selected instruction set wherever ilp_to_arity compiles (not on QPX and MIC); the class consists of ILP such registers except for int on AVX and for double and int on NEON (witnesses); streaming iff the set is at least the estimate, for sets below 2^31 times the estimate (beyond: does not compile, or wrong where long has 32 bits)"
  },
  {
   "property": "C61",
   "status": "partial",
   "theorems": [
    "isa_unique",
    "isa_widest_partial",
    "isa_widest_refuted",
    "isa_clang",
    "short_vec_not_twice",
    "short_vec_exists_partial",
    "short_vec_exists_refuted",
    "short_vec_arities",
    "short_vec_class_shape",
    "short_vec_classes_used"
   ],
   "note": "never defined twice; missing only short_vec<float, 32> on QPX; the selected instruction set is the widest unless Clang poses as GCC 4, which hides AVX-512 (witness)"
  },
  {
   "property": "C62",
   "status": "partial",
   "theorems": [
    "streaming_store",
    "streaming_load",
    "streaming_shift_any",
    "streaming_shift_refuted",
    "sv_store_nt_lp64_refuted"
   ],
   "note": "store and store_aligned proved (all classes whose store_nt works); ptr << vec performs an ordinary store, because the overload of streaming_short_vec.hpp declares its arity parameter as int and is never chosen"
  },
  {
   "property": "C54",
   "status": "proved",
   "theorems": [
    "C54_expansion_unique",
    "C54_size_is_length",
    "C54_elem_is_nth",
    "C54_dequeue_is_tail",
    "C54_if_shorter_compares",
    "C54_for_each_calls",
    "C54_for_each_expands_bodies",
    "C54_for_each_52_refuted"
   ],
   "note": "in every translation unit that includes the library, any number of further macros; list elements and arguments contain no macro names; SIZE of at most 51 elements, ELEM up to index 50 and DEQUEUE for lists of any length; the last theorem shows the limit of 51 is sharp"
  },
  {
   "property": "C63",
   "status": "proved",
   "theorems": [
    "C63_registration_text",
    "C63_members_in_order",
    "C54_expansion_unique"
   ],
   "note": "the expansion equals, token by token, a text written by hand (SpecRegister.v), apart from qualifiers such as inline and __host__ between the functions; class name, types, member names and arities are arbitrary token lists without macro names and without commas outside parentheses"
  },
  {
   "property": "C64",
   "status": "partial",
   "theorems": [
    "C64_value_unique",
    "C64_offsets_sum",
    "C64_offsets_exist",
    "C64_layout_offsets",
    "C64_totals",
    "C64_unparenthesised_arity_refuted"
   ],
   "note": "true for arities that are primary expressions (literals, names, parenthesised expressions); false for an arity such as 2 + 1, which the macro does not parenthesise (witness)"
  },
  {
   "property": "C65",
   "status": "proved",
   "theorems": [
    "C65_member_address",
    "C65_access_member",
    "C65_access_offset",
    "C65_indices",
    "C65_linear_start",
    "C63_registration_text"
   ],
   "note": "the generated text is evaluated as an integer expression and equals the address functions of Layout.v, on which C01 to C09 rest; machine arithmetic is C08"
  },
  {
   "property": "C66",
   "status": "proved",
   "theorems": [
    "C66_custom_text",
    "C66_uniform_text",
    "C66_outcome_unique",
    "C66_custom_first_fit",
    "C66_uniform_1d_first_fit",
    "C66_uniform_2d_first_fit",
    "C66_uniform_3d_first_fit",
    "C66_custom_is_model",
    "C66_uniform_is_model",
    "C66_default_lists"
   ],
   "note": "the text for any list elements without macro names; what it does for decimal literals, by an interpreter of the statements that occur in it; overload resolution between char and const char data is taken as given, and that the const variants build a soa_accessor from const data (which a compiler would reject) is not modelled"
  },
  {
   "property": "C67",
   "status": "proved",
   "theorems": [
    "C67_programs",
    "C67_neighbour_follows",
    "C67_const_neighbour_stays",
    "C67_dangling",
    "C67_const_reference_refuted"
   ],
   "note": "beyond the statement: a neighbour of an accessor that is gone has no index (as in auto n = array[i][coord<1, 0, 0>()]), and operator[] of a const soa_accessor does not compile; one cell type, unbounded integers"
  },
  {
   "property": "C68",
   "status": "partial",
   "theorems": [
    "C68_assign_copies_partial",
    "C68_assign_same_type",
    "C68_assign_copies_refuted",
    "C68_equal_same",
    "C68_same_equal_partial",
    "C68_same_equal_refuted"
   ],
   "note": "copies for accessors of different types; false for two accessors of the same type, which are rebound without copying (a[i] = b[i] on two soa_arrays of one size does nothing, witness); equality implies the same cell, the converse holds for the classes that hold their index and is false for the light ones, which compare pointers (witness)"
  },
  {
   "property": "C69",
   "status": "proved",
   "theorems": [
    "C69_strips_unique",
    "C69_splits_unique",
    "C69_trim",
    "C69_tokenize",
    "C69_join",
    "C69_round_trip"
   ],
   "note": "strings shorter than 2^64"
  },
  {
   "property": "C70",
   "status": "partial",
   "theorems": [
    "C70_named_partial",
    "C70_unnamed",
    "C70_blank_line_refuted",
    "C70_long_line_refuted",
    "C70_power_refuted",
    "C70_odd_values_refuted"
   ],
   "note": "proved for files of 'key TABS : value' lines with at most one tab at the name, one colon per line, a value and at most 4095 characters; false otherwise: a blank line before the name (first block on ARM) and entries without a value are undefined behaviour, the two tabs of POWER machines are not recognised, a colon cuts the name, an over-long line ends the search (witnesses)"
  },
  {
   "property": "C71",
   "status": "partial",
   "theorems": [
    "C71_likwid_partial",
    "C71_fallback",
    "C71_total_refuted"
   ],
   "note": "proved for comma separated output in which the keys stand only at the start of lines with at least three fields, whatever earlier lines left in the buffer; false for a key in the last field (undefined behaviour) and for lines of two fields, whose value drags old buffer contents (witnesses)"
  },
  {
   "property": "C72",
   "status": "partial",
   "theorems": [
    "C72_selected",
    "C72_columns",
    "C72_dimensions",
    "C72_aligned_partial",
    "C72_header",
    "C72_no_dimensions_refuted"
   ],
   "note": "aligned unless a value is wider than its column; undefined behaviour for an empty list of dimensions (witness)"
  },
  {
   "property": "C73",
   "status": "proved",
   "theorems": [
    "C73_body_text",
    "C73_unique",
    "C73_construct",
    "C73_destroy",
    "C73_load",
    "C73_save",
    "C73_copy",
    "C73_effect",
    "C73_assign",
    "C73_extract",
    "C73_arity_i_refuted",
    "C73_member_cell_refuted"
   ],
   "note": "an interpreter of the statements that occur in the text; links the text of C63 to the operations of Accessor.v, on which the properties of the containers rest; beyond the statement: with an arity written i the loops skip the member while load and save copy it, and with a member named cell operator= has no meaning; unbounded integers"
  },
  {
   "property": "C74",
   "status": "proved",
   "theorems": [
    "C74_sweeps",
    "C74_portable",
    "C74_equals_c99",
    "C74_selected",
    "C74_narrow_refuted"
   ],
   "note": "the vector operations are those of the modelled short_vec classes, the loops those of the peeler macro, the accesses those of the accessor on the heap of the grid model; beyond the statement: on grids narrower than a vector the leading scalar loop overwrites the boundary (witness: width 4, eight lanes)"
  },
  {
   "property": "C75",
   "status": "partial",
   "theorems": [
    "C75_kernels_partial",
    "C75_ghosts",
    "C75_no_stale_entries",
    "C75_overrun_refuted",
    "C75_ghosts_refuted"
   ],
   "note": "proved for all numbers of particles that are multiples of the vector length; for all others both kernels leave the storage of the particles (proved for every such number), and with the padding of soa_grid the result depends on unconstructed cells (witness); C75_ghosts says exactly which pairs the density kernel adds"
  },
  {
   "property": "C76",
   "status": "proved",
   "theorems": [
    "C76_density",
    "C76_acceleration",
    "C76_momentum",
    "C76_vector"
   ],
   "note": "arithmetic is an arbitrary commutative ring, division multiplies by some inverse, order and square root arbitrary; rounding is not considered"
  },
  {
   "property": "C77",
   "status": "proved",
   "theorems": [
    "C77_kernels",
    "C77_timesteps"
   ],
   "note": "double arithmetic arbitrary (in exact_field: any field containing the integers); threads interleave at store granularity; the launch must keep one cell from the far faces (nx + 3 <= dimX)"
  },
  {
   "property": "C78",
   "status": "proved",
   "theorems": [
    "C78_conservation",
    "C78_equilibrium"
   ],
   "note": "about the relaxation that C77 shows the kernels compute; rounding is not considered"
  },
  {
   "property": "C79",
   "status": "partial",
   "theorems": [
    "C79_dimensions",
    "C79_benchmark_partial",
    "C79_grid_size",
    "C79_interior_refuted",
    "C79_bytes",
    "C79_glups_refuted"
   ],
   "note": "proved: block dimensions, every execution stays inside the allocations and has the same result, which cells are written and how many; refuted: for every dim boundary cells are overwritten, for dim = 100 interior cells are skipped; the printed rate is ten times the true one; from dim = 205 on the int byte count of the basic kernels overflows (the benchmark ends at 160)"
  },
  {
   "property": "C80",
   "status": "proved",
   "theorems": [
    "C80_implementations",
    "C80_all_needed"
   ],
   "note": "the list of lines is modelled as the product of the intervals; a script compared it with the 1331 lines of the files"
  },
  {
   "property": "C81",
   "status": "partial",
   "theorems": [
    "C81_vanilla",
    "C81_pepper",
    "C81_pepper_odd",
    "C81_bronze_partial",
    "C81_silver",
    "C81_gold",
    "C81_sizes",
    "C81_constant",
    "C81_same_grid_refuted",
    "C81_steps_refuted",
    "C81_initial",
    "C81_initial_refuted",
    "C81_updates"
   ],
   "note": "true of Bronze only (any dimensions, contents and arithmetic); proved of each other species which filter it does compute: Vanilla and Pepper never swap the grids (n sweeps are one), Pepper weighs the upper neighbour with WEIGHT_N in its scalar cells and drops the centre in its vector cells, Silver drops it too and skips the last interior cell of every row, Gold has no centre at all; the differences are proved for every size of the runs; all accesses stay inside except for Pepper on rows of odd length and for the start values on more rows than cells in a row; double arithmetic arbitrary, alignment modelled for the SSE2 species only"
  },
  {
   "property": "C82",
   "status": "partial",
   "theorems": [
    "C82_scalar",
    "C82_short_vec",
    "C82_capacity",
    "C82_pepper_partial",
    "C82_pepper_buffer_refuted",
    "C82_avx",
    "C82_species_partial",
    "C82_runs",
    "C82_rest_refuted",
    "C82_momentum"
   ],
   "note": "scalar and short_vec species proved for all numbers of particles; those with AVX intrinsics (in exact arithmetic, where rcp and rsqrt are exact) for multiples of eight, which includes all runs; for any other number Curry and Bronze never move the last n mod 8 particles (refuted for every such n); Pepper stores eight sums to a float array on the stack with an instruction that demands 32 byte alignment, which the declaration does not provide; one arithmetic stands for float and double"
  },
  {
   "property": "C83",
   "status": "partial",
   "theorems": [
    "C83_vanilla",
    "C83_pepper",
    "C83_gold_partial",
    "C83_gold_stuck_refuted",
    "C83_gold_runs_refuted",
    "C83_ghosts_refuted",
    "C83_start"
   ],
   "note": "Vanilla and Pepper proved for all particles, boundaries and repetitions; Gold only for the first repetition on container sizes that are multiples of eight: it compares with a vector of the first boundary for ever, so afterwards it never moves a particle again (proved in general and for the three runs), and with other sizes the cells behind the end become particles (proved for every such number)"
  },
  {
   "property": "C84",
   "status": "partial",
   "theorems": [
    "C84_vanilla",
    "C84_gold_partial",
    "C84_gold_endless_refuted",
    "C84_same_partial",
    "C84_same_refuted"
   ],
   "note": "what each species computes is proved in any arithmetic, Gold for multiples of eight; for every other number its loop misses the end and leaves the storage; the species agree on particles at rest, as in the runs, but not on moving ones (witness)"
  },
  {
   "property": "C85",
   "status": "partial",
   "theorems": [
    "C85_vanilla",
    "C85_gold_partial",
    "C85_gold_refuted",
    "C85_runs",
    "C85_float_sum",
    "C85_floats",
    "C85_gold_floats_partial",
    "C85_gold_floats_refuted"
   ],
   "note": "proved for up to 16384 particles, in any arithmetic for the distances; beyond, a float sum may stick at 2^24 (refuted for all multiples of 16 above, if all are near); the counters of the three runs are computed exactly and lie below 2^31"
  },
  {
   "property": "C86",
   "status": "partial",
   "theorems": [
    "C86_never",
    "C86_returns",
    "C86_set_throws",
    "C86_set_n_throws",
    "C86_broadcast_throws",
    "C86_assign_throws_partial",
    "C86_assign_same_dims",
    "C86_new",
    "C86_copy_throws",
    "C86_resize_member",
    "C86_resize_bad_alloc",
    "C86_resize_bad_alloc_fresh",
    "C86_resize_refuted"
   ],
   "note": "true of set, broadcast and assignment between grids of the same dimensions, and of a throwing allocator in constructors; refuted otherwise: a throwing member leaks the storage and the objects built so far in both sizing constructors, and after any exception inside resize a grid that had storage cannot even be destroyed (proved for every such grid and call); a thrown constructor leaves raw bytes, a thrown assignment the old value; member destructors do not throw"
  },
  {
   "property": "C87",
   "status": "partial",
   "theorems": [
    "C87_returns",
    "C87_set",
    "C87_pop",
    "C87_push_room",
    "C87_reserve",
    "C87_reserve_refuted",
    "C87_push_grow",
    "C87_fill",
    "C87_assign_sizes",
    "C87_assign_refuted"
   ],
   "note": "true of set, of push_back with room, of reserve while it copies the elements or when its first allocation fails, and of push_back that fails after growing; pop_back has removed the element although it threw; refuted: a constructor that throws in the first grid of reserve or of soa_vector(count, value) leaks the storage, an exception while reserve rounds the size up is undefined behaviour (for every vector and n that is rounded up), and a throwing assignment leaves the old size with the other capacity, so that size() may exceed capacity()"
  },
  {
   "property": "C88",
   "status": "partial",
   "theorems": [
    "C88_programs",
    "C88_step",
    "C88_never",
    "C88_strong",
    "C88_basic",
    "C88_no_leak",
    "C88_constructors_partial",
    "C88_assign_strong_refuted",
    "C88_cleanup_refuted"
   ],
   "note": "true of all calls on existing arrays (whole programs with an exception in any number of calls; exactly when a call throws; strong guarantee of operator<<, push_back, load at the end and of the constructors for all other arrays; basic guarantee of the rest); refuted: a constructor that throws leaves the objects it constructed undestroyed (their number is proved); member destructors do not throw"
  },
  {
   "property": "C89",
   "status": "proved",
   "theorems": [
    "C89_load",
    "C89_save"
   ],
   "note": "every list of streaks, buffer and position of the exception; closed under the global context"
  },
  {
   "property": "C90",
   "status": "proved",
   "theorems": [
    "C90_programs",
    "C90_no_leak",
    "C90_never",
    "C90_ctor",
    "C90_example_legal",
    "C90_resize_refuted"
   ],
   "note": "whole programs; C90_example_legal: a family of programs of any length that meets the hypothesis; C90_resize_refuted shows that the restriction to these calls is necessary, as the statement says"
  },
  {
   "property": "C91",
   "status": "proved",
   "theorems": [
    "C91_programs",
    "C91_no_leak",
    "C91_plain",
    "C91_objects",
    "C91_example_legal",
    "C91_push_refuted"
   ],
   "note": "whole programs; C91_example_legal: a family of programs that meets the hypothesis; C91_push_refuted shows that the restriction on the moments is necessary, as the statement says"
  }
 ]
}