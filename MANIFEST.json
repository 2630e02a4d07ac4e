{
 "claims": [
  {
   "property": "C01",
   "status": "proved",
   "theorems": [
    "C01_traversal"
   ],
   "note": "Positions: the theorem needs the iterator to be fresh or the slice longer than one vector; the excluded states are C51."
  },
  {
   "property": "C02",
   "status": "proved",
   "theorems": [
    "C02_end"
   ],
   "note": "Both code paths of end(), both merge back-ends, both build modes; same position guard as C01 (see C51)."
  },
  {
   "property": "C03",
   "status": "partial",
   "theorems": [
    "C03_end_debug_partial",
    "C03_end_any_time_refuted"
   ],
   "note": "Refuted for every position with more than WIDTH elements left, with the exact outcome in every build: Debug and portable merges panic, the byte blend returns a wrong vector (left <= 64/SIZE), reads outside the mask table (64/SIZE + left <= 128) or panics. Proved part: Debug builds never return a wrong answer."
  },
  {
   "property": "C04",
   "status": "proved",
   "theorems": [
    "C04_next_safe"
   ],
   "note": "All 2^64 positions, both build modes."
  },
  {
   "property": "C05",
   "status": "proved",
   "theorems": [
    "C05_history"
   ],
   "note": "Refinement to the suffix machine by induction on the history."
  },
  {
   "property": "C06",
   "status": "proved",
   "theorems": [
    "C06_reduce"
   ],
   "note": "Any stateful closure; also states the number of calls."
  },
  {
   "property": "C07",
   "status": "proved",
   "theorems": [
    "C07_width_independent",
    "C07_zip_width_independent"
   ],
   "note": "Any commutative monoid; also the zipped form."
  },
  {
   "property": "C08",
   "status": "proved",
   "theorems": [
    "C08_map_collect"
   ],
   "note": "Any lane-wise function, both build modes."
  },
  {
   "property": "C09",
   "status": "proved",
   "theorems": [
    "C09_collect_closure"
   ],
   "note": "Any stateful closure."
  },
  {
   "property": "C10",
   "status": "proved",
   "theorems": [
    "C10_fill",
    "C10_fill_closure"
   ],
   "note": "Frame included; also for arbitrary closures."
  },
  {
   "property": "C11",
   "status": "partial",
   "theorems": [
    "C11_short_fill_partial",
    "C11_short_fill_refuted",
    "C11_short_fill_all_refuted"
   ],
   "note": "Refuted in Release for every buffer that holds at least one vector but not the result (writes outside the buffer); the same for scalar_fill_all. Proved part: Debug builds, and buffers shorter than one vector in every build, panic."
  },
  {
   "property": "C12",
   "status": "partial",
   "theorems": [
    "C12_fill_all_partial",
    "C12_collect_all_refuted"
   ],
   "note": "scalar_fill_all proved under a long enough buffer; scalar_collect_all refuted for every mapped iterator whose length is not too small (it hands out a slice of len() scalars for len() vectors)."
  },
  {
   "property": "C13",
   "status": "proved",
   "theorems": [
    "C13_for_each",
    "C13_for_each_lanes"
   ],
   "note": "Lane-wise and arbitrary closures."
  },
  {
   "property": "C14",
   "status": "partial",
   "theorems": [
    "C14_for_each_from_partial",
    "C14_for_each_from_refuted",
    "C14_for_each_short_refuted"
   ],
   "note": "simd_for_each on a partly consumed iterator, characterised for every start position: right under the guard of the _partial theorem, wrong (the two _refuted theorems, with the outcome) in every other case."
  },
  {
   "property": "C15",
   "status": "proved",
   "theorems": [
    "C15_fused",
    "C15_fused_built"
   ],
   "note": "From every state of the slice iterator; C15_fused_built for next() of every iterator the library can build, in every state and build."
  },
  {
   "property": "C16",
   "status": "proved",
   "theorems": [
    "C16_unroll",
    "C16_chunk_pos"
   ],
   "note": "Every group size 1..8; k > 8 panics."
  },
  {
   "property": "C17",
   "status": "partial",
   "theorems": [
    "C17_len_fresh_partial",
    "C17_len_refuted",
    "C17_len_stride_refuted"
   ],
   "note": "Proved for fresh slice iterators. Refuted with the exact count: after consumption, and for strides, where len() is one too large exactly when the stream's last vector ends at the end of the data."
  },
  {
   "property": "C18",
   "status": "partial",
   "theorems": [
    "C18_units_partial",
    "C18_mapped_positions_partial",
    "C18_mapped_refuted",
    "C18_zipped_refuted"
   ],
   "note": "Refuted for mapped and zipped iterators (units confused); proved for slice iterators."
  },
  {
   "property": "C19",
   "status": "proved",
   "theorems": [
    "C19_width_change"
   ],
   "note": "Every pair of scalar sizes."
  },
  {
   "property": "C20",
   "status": "proved",
   "theorems": [
    "C20_closure_calls"
   ],
   "note": "The closure state records every call."
  },
  {
   "property": "C21",
   "status": "proved",
   "theorems": [
    "C21_stride"
   ],
   "note": "Every data, count, stream and width."
  },
  {
   "property": "C22",
   "status": "proved",
   "theorems": [
    "C22_partition",
    "C22_trailing_lost"
   ],
   "note": "Proved in full. Beyond the claim: when count does not divide the length, exactly the trailing incomplete group is lost (C22_trailing_lost)."
  },
  {
   "property": "C23",
   "status": "partial",
   "theorems": [
    "C23_next_in_bounds_partial",
    "C23_scalar_in_bounds_partial",
    "C23_wrapped_next_refuted",
    "C23_in_bounds_refuted",
    "C23_history_partial",
    "C23_next_release"
   ],
   "note": "Refuted for histories whose advance() wraps the position. Proved: every history of calls that stays in range behaves like a sequential read of the stream, in both builds (C23_history_partial), and the complete release-mode outcome of next() from every state, wrapped or not (C23_next_release)."
  },
  {
   "property": "C24",
   "status": "proved",
   "theorems": [
    "C24_random_access"
   ],
   "note": "Exact panic conditions."
  },
  {
   "property": "C25",
   "status": "proved",
   "theorems": [
    "C25_constructors"
   ],
   "note": "Equality of the constructors' results."
  },
  {
   "property": "C26",
   "status": "proved",
   "theorems": [
    "C26_nested"
   ],
   "note": "Any nesting, by preservation of the array laws."
  },
  {
   "property": "C27",
   "status": "proved",
   "theorems": [
    "C27_lockstep",
    "C27_two_slices"
   ],
   "note": "Every arity, by closure under products."
  },
  {
   "property": "C28",
   "status": "proved",
   "theorems": [
    "C28_zip_closure",
    "C28_zip_map_collect",
    "C28_mixed"
   ],
   "note": "Every arity, lane-wise and arbitrary closures; C28_mixed is the two-component case for iterators of any kind, for instance a slice with a stride stream."
  },
  {
   "property": "C29",
   "status": "partial",
   "theorems": [
    "C29_vector_counts_partial",
    "C29_lengths_refuted",
    "C29_widths_refuted",
    "C29_outcomes_partial"
   ],
   "note": "Refuted: equal vector counts with different scalar lengths or widths are accepted. Proved parts: different vector counts panic; C29_outcomes_partial gives the exact outcome of draining two slices of equal vector counts and any lengths, in both builds."
  },
  {
   "property": "C30",
   "status": "partial",
   "theorems": [
    "C30_same_position_partial",
    "C30_positions_refuted",
    "C30_first_position_partial"
   ],
   "note": "Refuted: only the first position is honoured. Proved parts: equal positions, and what is handed out for any two positions."
  },
  {
   "property": "C31",
   "status": "partial",
   "theorems": [
    "C31_blocks_partial",
    "C31_positions",
    "C31_tail_count_refuted",
    "C31_outcomes_partial",
    "C31_end_early"
   ],
   "note": "Proved for multiples of 2*WIDTH; the count returned by end() refuted otherwise. C31_outcomes_partial gives everything that is handed out, for every length."
  },
  {
   "property": "C32",
   "status": "partial",
   "theorems": [
    "C32_first_vector_partial",
    "C32_short_refuted",
    "C32_lost_refuted",
    "C32_overrun_refuted"
   ],
   "note": "Refuted for every length: at or above WIDTH the loop stops after half the vectors and loses the rest or overruns the buffer, below WIDTH nothing is produced or the tail is wrong. Proved part: the first vector."
  },
  {
   "property": "C33",
   "status": "proved",
   "theorems": [
    "C33_store_load",
    "C33_load",
    "C33_store_panics"
   ],
   "note": "Round trip, frame, exact panics; unchecked accesses panic out of bounds in Debug."
  },
  {
   "property": "C34",
   "status": "proved",
   "theorems": [
    "C34_extract_replace",
    "C34_scalar_reduce",
    "C34_product_release",
    "C34_product_debug",
    "C34_splat_coalesce",
    "C34_coalesce_unequal"
   ],
   "note": "All lane access laws incl. debug/release product and coalesce; unchecked accesses panic out of bounds in Debug."
  },
  {
   "property": "C35",
   "status": "proved",
   "theorems": [
    "C35_partition_mask",
    "C35_mask_lanes",
    "C35_halfs_interleave",
    "C35_partition",
    "C35_partition_blend",
    "C35_ones_zeroes"
   ],
   "note": "All thirty type descriptors, byte-level mask table."
  },
  {
   "property": "C36",
   "status": "partial",
   "theorems": [
    "C36_mask_in_table_partial",
    "C36_mask_overread_refuted"
   ],
   "note": "Refuted in Release for every SIZE > 1 (offset arithmetic wraps and reads past the table). Proved part: Debug, SIZE = 1, or off <= 64/SIZE."
  },
  {
   "property": "C37",
   "status": "proved",
   "theorems": [
    "C37_merge_portable",
    "C37_merge_blend"
   ],
   "note": "Portable and byte-blend implementations for off < WIDTH; off = WIDTH is C54."
  },
  {
   "property": "C38",
   "status": "proved",
   "theorems": [
    "C38_eq_mask",
    "C38_ne_mask"
   ],
   "note": "All integer and float types, portable code and instruction, both back-ends."
  },
  {
   "property": "C39",
   "status": "proved",
   "theorems": [
    "C39_int",
    "C39_float",
    "C39_nan_differs"
   ],
   "note": "Proved in full, for both answers Rust may give where zeros of opposite sign meet. Beyond the claim: on NaN the back-ends differ, for every type and every NaN (C39_nan_differs)."
  },
  {
   "property": "C40",
   "status": "proved",
   "theorems": [
    "C40_saturating_add",
    "C40_saturating_sub",
    "C40_saturating_hadd",
    "C40_saturating_hsub",
    "C40_saturating_h_optimized"
   ],
   "note": "saturating_add/sub/hadd/hsub, portable for every type of both back-ends and every optimised implementation."
  },
  {
   "property": "C41",
   "status": "proved",
   "theorems": [
    "C41_hadd",
    "C41_hsub",
    "C41_overflow_panics",
    "C41_hadd_optimized",
    "C41_hsub_optimized",
    "C41_hadd_float",
    "C41_hsub_float",
    "C41_float_optimized"
   ],
   "note": "Portable (incl. exactly when debug builds panic) and every optimised implementation, for any float addition; the _float theorems instantiate it with IEEE arithmetic and prove correct rounding."
  },
  {
   "property": "C42",
   "status": "partial",
   "theorems": [
    "C42_sum_portable",
    "C42_sum_overflow_panics",
    "C42_sum_upcast_portable",
    "C42_sum_upcast_exact",
    "C42_sum_upcast_panics",
    "C42_sum_optimized_partial",
    "C42_sum_optimized_debug",
    "C42_sum_optimized_refuted",
    "C42_sum_upcast_optimized",
    "C42_sum_upcast_i8_partial",
    "C42_sum_upcast_i8_refuted",
    "C42_sum_upcast_float"
   ],
   "note": "Integer sums: the portable sum is the exact total reduced to the lane type (release) and panics in debug exactly when a running partial sum leaves the type; sum_upcast is the exact total unless the 64-bit accumulator overflows. Optimised forms agree with the portable ones except: refuted for i16x16 and i32x8 in debug (two scalar additions of lane 0 and the half may panic although no running sum overflows) and for sum_upcast on signed bytes (the SSE/AVX2 form returns the sum of the bytes modulo 256). Float sums agree on every set of numbers where addition is associative; float sum_upcast adds truncated lanes."
  },
  {
   "property": "C43",
   "status": "proved",
   "theorems": [
    "C43_count_ones",
    "C43_count_zeroes"
   ],
   "note": "Both implementations (nibble table and portable), all integer vector types, both build modes; count_zeroes is the complement."
  },
  {
   "property": "C44",
   "status": "proved",
   "theorems": [
    "C44_swap_bytes",
    "C44_round_trip",
    "C44_memory_order"
   ],
   "note": "swap_bytes, to/from_be/le, byte-shuffle implementation."
  },
  {
   "property": "C45",
   "status": "proved",
   "theorems": [
    "C45_bitcast",
    "C45_be_as",
    "C45_result_types",
    "C45_every_vector"
   ],
   "note": "Every pair of lane types, little-endian grouping."
  },
  {
   "property": "C46",
   "status": "proved",
   "theorems": [
    "C46_upcast_portable",
    "C46_upcast_optimized"
   ],
   "note": "Every integer and f32 type of both back-ends, portable and optimised, same numeric value lane by lane."
  },
  {
   "property": "C47",
   "status": "partial",
   "theorems": [
    "C47_downcast_portable_partial",
    "C47_downcast_u64_partial",
    "C47_downcast_u64_refuted",
    "C47_downcast_optimized_partial",
    "C47_downcast_unsigned_refuted",
    "C47_downcast_256_refuted",
    "C47_downcast_float",
    "C47_downcast_u64_lanes",
    "C47_downcast_instruction"
   ],
   "note": "Refuted three times, each for all inputs with the stated lane: the portable u64 code saturates against a signed bound, the SSE unsigned packs read lanes as signed, the AVX2 packs interleave the 128-bit halves. Proved parts: every other portable type, u64 below the bound, the SSE packs on lanes whose signed reading is the value. C47_downcast_u64_lanes and C47_downcast_instruction give the exact result of the faulty versions for all vectors."
  },
  {
   "property": "C48",
   "status": "partial",
   "theorems": [
    "C48_destride_two_portable",
    "C48_destride_four",
    "C48_destride_two_128",
    "C48_destride_two_256_refuted",
    "C48_destride_two_256"
   ],
   "note": "Portable destride_two/destride_four for every type and the 128-bit optimised version proved; the 256-bit optimised second output refuted for all vectors with a[1] <> b[0]. C48_destride_two_256 gives both outputs for all vectors."
  },
  {
   "property": "C49",
   "status": "proved",
   "theorems": [
    "C49_abs_portable",
    "C49_abs_optimized"
   ],
   "note": "All integer types (minimum included) and floats (bit-exact, NaN payload kept), portable and optimised."
  },
  {
   "property": "C50",
   "status": "partial",
   "theorems": [
    "C50_directed",
    "C50_round_partial",
    "C50_round_ties_refuted"
   ],
   "note": "ceil/floor/trunc: proved in full incl. signed zero, infinities, NaN. round: both implementations are nearest and agree off ties; on ties the portable one goes away from zero and the instruction to even (both proved), so they differ (refuted for every half-way number above an even integer)."
  },
  {
   "property": "C51",
   "status": "partial",
   "theorems": [
    "C51_short_partly_consumed_refuted"
   ],
   "note": "Refuted: on a slice no longer than a vector, end() after some scalars were consumed panics (Debug) or writes outside the vector (Release), for every such slice and position."
  },
  {
   "property": "C52",
   "status": "partial",
   "theorems": [
    "C52_unrolled_groups_refuted",
    "C52_unrolled_group_fresh_partial"
   ],
   "note": "Refuted for every iterator and every pair of successive groups: the first group then reads as the second. Proved part: the group is right until the next call."
  },
  {
   "property": "C53",
   "status": "proved",
   "theorems": [
    "C53_flip",
    "C53_flip_index"
   ],
   "note": "Both back-ends, every type; involution and index form. The swizzle files are in the source tree but no mod line includes them, so flip is not reachable from the crate at this commit; the theorems are about that source text."
  },
  {
   "property": "C54",
   "status": "partial",
   "theorems": [
    "C54_offset_width_refuted"
   ],
   "note": "Refuted for every blend type and all vectors: the portable code panics where the blend returns self."
  },
  {
   "property": "C55",
   "status": "partial",
   "theorems": [
    "C55_provided_partial",
    "C55_provided_refuted"
   ],
   "note": "Refuted for min/max of u32x8 and i32x8 (gated by avx, AVX2 instructions) and the rounding functions of f64x4 (gated by sse4.1, AVX instructions), on every machine with the one feature and not the other. Proved part: every other method of the x86 back-end."
  },
  {
   "property": "C56",
   "status": "proved",
   "theorems": [
    "C56_sqrt",
    "C56_sqrt_rounded"
   ],
   "note": "C56_sqrt: lane-wise for any square root function; C56_sqrt_rounded: IEEE square root, correctly rounded."
  },
  {
   "property": "C57",
   "status": "proved",
   "theorems": [
    "C57_one_definition",
    "C57_methods_once",
    "C57_same_methods"
   ],
   "note": "All feature predicates, consistent or not; 714 methods."
  },
  {
   "property": "C58",
   "status": "proved",
   "theorems": [
    "C58_natural_vector",
    "C58_scalar"
   ],
   "note": "All consistent feature sets."
  },
  {
   "property": "C59",
   "status": "partial",
   "theorems": [
    "C59_load_refuted",
    "C59_store_refuted",
    "C59_load_partial",
    "C59_store_partial",
    "C59_unaligned",
    "C59_unchecked"
   ],
   "note": "Refuted: load and store check only that the slice can hold a vector, not that it can at the offset; every slice that is long enough with an offset in its last WIDTH-1 positions or at its end gives an out-of-bounds access. Proved part: all other slices and offsets, and load_unaligned/store_unaligned everywhere."
  },
  {
   "property": "C60",
   "status": "proved",
   "theorems": [
    "C60_operators",
    "C60_assigning",
    "C60_complete",
    "C60_float_operators"
   ],
   "note": "Any float arithmetic in C60_operators; C60_float_operators instantiates it with IEEE arithmetic and proves correct rounding."
  },
  {
   "property": "C61",
   "status": "proved",
   "theorems": [
    "C61_casts",
    "C61_complete"
   ],
   "note": "Saturating float-to-integer casts as defined since Rust 1.45; before, out-of-range values were undefined."
  },
  {
   "property": "C62",
   "status": "proved",
   "theorems": [
    "C62_bytes",
    "C62_complete"
   ],
   "note": "All pairs of integer vector types."
  },
  {
   "property": "C63",
   "status": "proved",
   "theorems": [
    "C63_eq",
    "C63_relation"
   ],
   "note": "All types and vectors."
  },
  {
   "property": "C64",
   "status": "proved",
   "theorems": [
    "C64_construct",
    "C64_lanes"
   ],
   "note": "All types, vectors and indices."
  },
  {
   "property": "C65",
   "status": "partial",
   "theorems": [
    "C65_natural_partial",
    "C65_natural_refuted",
    "C65_nothing_else"
   ],
   "note": "refuted: min/max of 64-bit integers, saturating add/sub of 32/64-bit integers, recip/rsqrt of f64 and destride of floats and 64-bit integers exist in no build; all other meaningful operations exist in every build."
  },
  {
   "property": "C66",
   "status": "partial",
   "theorems": [
    "C66_portable_partial",
    "C66_portable_refuted"
   ],
   "note": "refuted: count_ones exists only on x86; saturating_add of 32/64-bit integers and rsqrt of f64x2 only in the portable back-end; all other operations agree."
  },
  {
   "property": "C67",
   "status": "proved",
   "theorems": [
    "C67_recip_portable",
    "C67_recip_optimized",
    "C67_recip_agree"
   ],
   "note": "That the instruction meets Intel's bound is a premise of the optimised theorem; C67_recip_satisfiable shows the premise can be met."
  },
  {
   "property": "C68",
   "status": "proved",
   "theorems": [
    "C68_rsqrt_scalar",
    "C68_rsqrt_portable",
    "C68_rsqrt_optimized"
   ],
   "note": "As C67."
  },
  {
   "property": "C69",
   "status": "partial",
   "theorems": [
    "C69_sum_float_order",
    "C69_sum_float_exact_partial",
    "C69_sum_negative_zero_refuted",
    "C69_sum_rounding_refuted"
   ],
   "note": "Refuted for every type: all lanes -0.0 give +0.0 or -0.0, and for four or more lanes 2^24, 0, 1, 1 gives different numbers. Proved: the order of the additions of every version (any addition), and that both are exact, hence equal, when the lanes are multiples of a power of two and their magnitudes add up to less than 2^24 (2^53) of it."
  },
  {
   "property": "C70",
   "status": "proved",
   "theorems": [
    "C70_debug_calls",
    "C70_debug_array",
    "C70_debug_consumers",
    "C70_debug_collect",
    "C70_debug_for_each_zip"
   ],
   "note": "Every nesting of slice iterators, strides, zips, stride zips and maps; any calls on the iterator or on the components of an array; all consumers.  C70_release_differs shows that the premise Debug is needed."
  },
  {
   "property": "C71",
   "status": "partial",
   "theorems": [
    "C71_collect_rest_partial",
    "C71_collect_rest_refuted"
   ],
   "note": "Refuted, with the exact result: when at least one whole vector was consumed and a whole number of vectors is left, the vector returned is too long by the consumed vectors and the extra cells are uninitialised. Proved part: all other positions."
  },
  {
   "property": "C72",
   "status": "proved",
   "theorems": [
    "C72_zip_slices",
    "C72_zip_strides",
    "C72_map",
    "C72_abs",
    "C72_sum",
    "C72_inner_product"
   ],
   "note": "Closures are lane-wise on vectors of in-type scalars; abs and sum are those of the library (all table rows). Float reductions: see C69."
  },
  {
   "property": "C73",
   "status": "proved",
   "theorems": [
    "C73_state_per_vector"
   ],
   "note": "Any closure returning vectors of the right length, with any state; the state includes the call on the padded last vector."
  },
  {
   "property": "C74",
   "status": "proved",
   "theorems": [
    "C74_constants"
   ],
   "note": "Release builds (debug builds panic on overflow). Generalises the documentation's example; a, d and k are any integers of the lane type."
  },
  {
   "property": "C75",
   "status": "partial",
   "theorems": [
    "C75_collect_partial",
    "C75_collect_refuted"
   ],
   "note": "Refuted for every length that is not a multiple of 2*WIDTH (for WIDTH = 2 and three left-over scalars only the contents differ); C75_collect_partial gives the exact result for every length."
  },
  {
   "property": "C76",
   "status": "proved",
   "theorems": [
    "C76_no_panic",
    "C76_fill_panic",
    "C76_fill_all_panic",
    "C76_for_each_panic",
    "C76_fill_short",
    "C76_fill_all_short"
   ],
   "note": "C76_no_panic ties the memory-observing functions to the main model. In release builds a short buffer is C11_short_fill_refuted."
  },
  {
   "property": "C77",
   "status": "proved",
   "theorems": [
    "C77_for_store"
   ],
   "note": "Any function from vectors to vectors of the same width."
  },
  {
   "property": "C78",
   "status": "proved",
   "theorems": [
    "C78_eq_mask",
    "C78_min_max",
    "C78_min_max_float",
    "C78_saturating",
    "C78_directed",
    "C78_sqrt",
    "C78_merge",
    "C78_shuffle",
    "C78_hadd",
    "C78_hsub",
    "C78_saturating_h",
    "C78_abs",
    "C78_upcast",
    "C78_downcast",
    "C78_destride",
    "C78_sum",
    "C78_sum_upcast",
    "C78_attributes",
    "C78_attributes_written",
    "C78_sum_exact"
   ],
   "note": "The exceptions named in the statement are where builds differ; they are refuted under C39, C42, C47, C48, C50 and C54. Selection by cfg attributes is part of the model (Builds.v), and the attributes used are shown to be those of the separately transcribed list of C57 (except upcast and saturating_downcast, which that list does not contain)."
  },
  {
   "property": "C79",
   "status": "partial",
   "theorems": [
    "C79_fusion_partial",
    "C79_zip_fusion_partial",
    "C79_identity",
    "C79_reduce_map",
    "C79_widen_narrow_refuted"
   ],
   "note": "Refuted when the middle lanes are larger than those at both ends (for instance be_u16s followed by be_u8s on bytes): the count of unfilled lanes is rounded down in the middle type, and collecting inserts default lanes before the tail. Proved in all other cases, and for every iterator, not only slices."
  },
  {
   "property": "C80",
   "status": "proved",
   "theorems": [
    "C80_unrolled_store"
   ],
   "note": "Proved for the index i*k+idx. That the loop panics on a short last group is part of the statement: the body of the benchmarks indexes v[0]..v[7] unconditionally."
  },
  {
   "property": "C81",
   "status": "partial",
   "theorems": [
    "C81_benchmark_refuted"
   ],
   "note": "Refuted: with the index i + idx group number i overwrites all but the first vector of group i-1. Of n*k vectors only n+k-1 blocks of out are written. An error of the benchmarks, not of the library."
  },
  {
   "property": "C82",
   "status": "proved",
   "theorems": [
    "C82_zip_fill",
    "C82_zip_sum",
    "C82_squares"
   ],
   "note": "Floating-point sums are not covered here (the order of additions is that of C42)."
  },
  {
   "property": "C83",
   "status": "proved",
   "theorems": [
    "C83_closure",
    "C83_map",
    "C83_zip",
    "C83_strides",
    "C83_sum",
    "C83_total"
   ],
   "note": "IEEE addition, multiplication and square root are parameters; + - * of vectors are those of the dependency packed_simd (wrapping). min and max of floats, round, recip and rsqrt are left out of the language because builds differ on them (C39, C50, C67, C68)."
  },
  {
   "property": "C84",
   "status": "proved",
   "theorems": [
    "C84_merge_patterns",
    "C84_shuffle",
    "C84_lanes",
    "C84_sum_hadd"
   ],
   "note": "sum after hadd is for release builds: debug builds may panic on overflow (C41, C42)."
  },
  {
   "property": "C85",
   "status": "partial",
   "theorems": [
    "C85_roundtrip_partial",
    "C85_roundtrip_256_refuted",
    "C85_roundtrip_u32_refuted",
    "C85_roundtrip_u32"
   ],
   "note": "Refuted twice, each for all inputs: with AVX2 the round trip of a 256-bit vector of 8- or 16-bit lanes exchanges its second and third quarter; a u32 lane above 2^31 - 1 in the upper half comes back as 2^31 - 1 in every build. Proved for everything else. C85_roundtrip_u32 gives the exact result for all u32 vectors in every build."
  },
  {
   "property": "C86",
   "status": "proved",
   "theorems": [
    "C86_sum_exact",
    "C86_sum_error",
    "C86_sum_nan"
   ],
   "note": "The two builds of C86_sum_error_case return different floats within the bound. Overflow to infinity is not described."
  },
  {
   "property": "C87",
   "status": "proved",
   "theorems": [
    "C87_printed",
    "C87_logged",
    "C87_once",
    "C87_log_after_failure"
   ],
   "note": "C87_log_after_failure: when println fails the guard is not updated, so the file gets the line again at the next execution."
  },
  {
   "property": "C88",
   "status": "proved",
   "theorems": [
    "C88_reduce",
    "C88_slice",
    "C88_minimum",
    "C88_maximum",
    "C88_saturating",
    "C88_product",
    "C88_bitwise",
    "C88_zip",
    "C88_product_sum"
   ],
   "note": "C88_reduce with a simd_map, C88_slice without; the others are instances. min and max of floats are in C90: builds differ on NaN and signed zeros (C39)."
  },
  {
   "property": "C89",
   "status": "proved",
   "theorems": [
    "C89_fused",
    "C89_dot_error",
    "C89_dot_exact",
    "C89_dot_whole",
    "C89_dot_nan"
   ],
   "note": "DotSpec.v states the bound in integers, multiplied by 2 * parts ^ (n + 1) * fone. C89_fused is the general law about zipped reductions."
  },
  {
   "property": "C90",
   "status": "proved",
   "theorems": [
    "C90_scalar",
    "C90_lanes",
    "C90_extremum",
    "C90_nan_lost"
   ],
   "note": "C90_extremum is the property; C90_lanes and C90_scalar are its per-lane parts, with zeros of both signs. C90_nan_lost gives the exact outcome of the NaN case in every build."
  },
  {
   "property": "C91",
   "status": "proved",
   "theorems": [
    "C91_closure",
    "C91_threes",
    "C91_scalar",
    "C91_at_one",
    "C91_sum_closure",
    "C91_whole_sum",
    "C91_fourth_roots"
   ],
   "note": "C91_threes, C91_scalar, C91_fourth_roots, C91_sum_closure and C91_whole_sum are the property; C91_closure says the closure compiles and does not panic; C91_at_one is the need of the bound, for one RSQRTPS within the specification."
  },
  {
   "property": "C92",
   "status": "partial",
   "theorems": [
    "C92_vector",
    "C92_map_partial",
    "C92_zip_partial",
    "C92_strides_partial",
    "C92_map_avx2_refuted",
    "C92_unsigned_refuted"
   ],
   "note": "Refuted: with AVX2 the second and third quarter of vectors of 8- or 16-bit lanes change places (C92_map_avx2_refuted, exact result); with SSE2 or SSE4.1 unsigned 16- or 32-bit results of at least half the range become 0 (C92_unsigned_refuted). Proved: C92_vector gives the exact lane in every build; the program theorems hold in all builds that keep the order, with narrowed = saturation except for these unsigned results; u64 results are assumed to be at most 2^31 - 1."
  },
  {
   "property": "C93",
   "status": "proved",
   "theorems": [
    "C93_for_each",
    "C93_fill",
    "C93_zip_fill"
   ],
   "note": "In place, into a buffer, and into a buffer from zipped slices; IEEE operations are parameters as in C83."
  },
  {
   "property": "C94",
   "status": "proved",
   "theorems": [
    "C94_closure",
    "C94_map",
    "C94_zip",
    "C94_same",
    "C94_for_each",
    "C94_for_each_panic",
    "C94_fill_panic",
    "C94_strides"
   ],
   "note": "OverflowSpec.v says when the scalar program overflows. C94_same puts an x86 build beside a portable one; float operations are parameters as in C83."
  },
  {
   "property": "C95",
   "status": "proved",
   "theorems": [
    "C95_closure",
    "C95_map",
    "C95_zip",
    "C95_strides",
    "C95_fill",
    "C95_fill_panic"
   ],
   "note": "C95_closure also says what becomes of larger u64 results: they are cut off at 2^31 - 1 in all lanes but the first, where the bound is 2^32 - 1 (refuted under C47)."
  },
  {
   "property": "C96",
   "status": "proved",
   "theorems": [
    "C96_reduce",
    "C96_slice",
    "C96_zip",
    "C96_minimum",
    "C96_maximum",
    "C96_bitwise",
    "C96_sum"
   ],
   "note": "The tightest case of the sum is a total of exactly the maximum of the type; beyond it a debug build may panic (C96_case)."
  },
  {
   "property": "C97",
   "status": "proved",
   "theorems": [
    "C97_sum_exact",
    "C97_sum_error",
    "C97_sum_nan",
    "C97_extremum"
   ],
   "note": "Stronger than C90 for the extremum: NaNs in the slice are allowed."
  },
  {
   "property": "C98",
   "status": "proved",
   "theorems": [
    "C98_vector",
    "C98_vector_portable",
    "C98_map",
    "C98_zip",
    "C98_strides",
    "C98_map_portable",
    "C98_zip_portable",
    "C98_strides_portable",
    "C98_product",
    "C98_int_sum",
    "C98_sum",
    "C98_difference",
    "C98_root",
    "C98_panic"
   ],
   "note": "Proved in full for x86 and portable targets. In a debug build on the portable back-end closures that reinterpret lanes as integers may panic: the hypothesis excludes integer overflow, and C98_panic says what happens with it."
  },
  {
   "property": "C99",
   "status": "proved",
   "theorems": [
    "C99_vector",
    "C99_map",
    "C99_fill",
    "C99_zip",
    "C99_strides",
    "C99_vector_portable",
    "C99_map_portable",
    "C99_fill_portable",
    "C99_zip_portable",
    "C99_strides_portable",
    "C99_panic",
    "C99_high_latency",
    "C99_high_latency_portable",
    "C99_fill_panic"
   ],
   "note": "StageSpec.v writes the three stages down for one row of scalars. C98 is the case of a single stage; here the slices may also be of u32, and integer operations before the widening wrap (x86, release) or panic when they overflow (debug builds of the portable back-end, C99_panic)."
  },
  {
   "property": "C100",
   "status": "proved",
   "theorems": [
    "C100_step",
    "C100_reduce",
    "C100_sum",
    "C100_step_portable",
    "C100_reduce_portable",
    "C100_total",
    "C100_closures",
    "C100_closures_portable",
    "C100_total_x86",
    "C100_closures_exact",
    "C100_zip_step",
    "C100_zip",
    "C100_zip_step_portable",
    "C100_zip_portable",
    "C100_dot",
    "C100_dot_exact",
    "C100_dot_portable",
    "C100_dot_total"
   ],
   "note": "Proved for x86 and portable targets. The general statements are C100_reduce and C100_reduce_portable; C100_closures and C100_closures_portable are the sum and the sum of squares. C100_zip, C100_dot and their portable versions are about two zipped slices in release builds, C100_dot_exact and C100_dot_total about debug builds as well. For x86 debug builds C100_reduce describes the accumulator for every slice, and C100_closures_exact the result of sum() where no partial sum can overflow; where one overflows, the portable sum() panics (C42)."
  }
 ]
}
