{"id": "C01", "title": "Traversal covers every element exactly once, in order", "statement": "Calling next() on a slice-backed SIMD iterator until it returns None and then calling end() delivers every remaining scalar of the slice exactly once and in index order: the vectors returned by next() are the consecutive full chunks of the remaining data, and the last WIDTH-n lanes of the vector returned by end() are the leftover elements. The traversal terminates and never panics or reads out of bounds.", "quantifier": "every element type, every vector width, every slice (any length including 0, shorter than a vector, exact multiple), every starting position (position 0 for slices no longer than a vector, any position for longer ones; the other states are C51), debug and release builds, both merge back-ends", "why_tests_cant": "Tests fix a handful of lengths and the one width of the build machine; the off-by-one cases depend on length mod width for every width.", "anchors": ["src/iters.rs: Iterator for SIMDIter::next (463-477)", "src/iters.rs: SIMDIterator blanket end (525-549)", "src/into_iters.rs: simd_iter"]}
{"id": "C02", "title": "end() right-aligns the tail over the default vector", "statement": "When fewer than WIDTH elements remain, end() returns (v,n) where n is exactly the number of lanes not filled, lanes 0..n of v equal the corresponding lanes of the default vector given to simd_iter, and lanes n..WIDTH are the remaining elements in order; when nothing remains it returns None. Afterwards the iterator is exhausted: next(), end() and unpack() yield nothing.", "quantifier": "every default vector (not only splats), every number of remaining elements 0..WIDTH, data shorter or longer than a vector, both build modes and back-ends", "why_tests_cant": "The two code paths (vector load + merge, and scalar replace) are selected by data length; tests check one default and one width.", "anchors": ["src/iters.rs: end (525-549)", "src/intrin/merge.rs: merge_partitioned", "src/iters.rs: finalize (45-48)"]}
{"id": "C03", "title": "end() is safe to call at any time", "statement": "end() is a safe method, so calling it while more than WIDTH elements remain must at worst panic: it must never read outside the data or the library's static tables, and never return a wrong vector silently.", "quantifier": "every iterator state reachable through the safe API, debug and release builds, both merge back-ends", "why_tests_cant": "Release-mode wrap-around plus an unchecked mask-table read only shows for particular lengths and feature flags.", "anchors": ["src/iters.rs: end (525-549)", "src/arch/x86/vec_patterns.rs: partition_mask", "src/intrin/merge.rs: merge_partitioned (optimized)"]}
{"id": "C04", "title": "next() is memory safe from every state", "statement": "next() on a slice-backed iterator never reads outside the slice, whatever value the public position field holds or advance() was called with, including values for which position+width overflows usize; it returns None, a vector lying inside the slice, or panics.", "quantifier": "all 2^64 positions, all slices, all widths, debug and release", "why_tests_cant": "The interesting states are at the top of the usize range.", "anchors": ["src/iters.rs: SIMDIter (208-214), next (463-477), load_unchecked (417-420)", "src/vecs.rs: load_unchecked (118-121)"]}
{"id": "C05", "title": "Mixed histories of next / scalar next / advance / pos queries", "statement": "For every finite history of next(), unpack().next()+pack(), advance(k), finalize(), scalar_pos() and vector_pos() on one iterator, each answer equals the answer of the obvious abstract machine holding only the not-yet-consumed suffix of the slice; no element is skipped or delivered twice by next/unpack switching.", "quantifier": "all operation sequences of any length on any slice/width with total advance below usize::MAX", "why_tests_cant": "The number of histories is unbounded.", "anchors": ["src/iters.rs: next, advance, finalize, scalar_pos, vector_pos, Unpacked::next (343-352), pack (357)"]}
{"id": "C06", "title": "simd_reduce / simd_do_each visit exactly the traversal", "statement": "simd_reduce(start,f) equals folding f from start over the full chunks in order and then, if the length is not a multiple of WIDTH, once over the padded tail vector; f is called exactly ceil(len/WIDTH) times. simd_do_each makes the same calls.", "quantifier": "every stateful closure, accumulator type, slice, width, default", "why_tests_cant": "Number and order of closure calls for all lengths.", "anchors": ["src/iters.rs: simd_do_each (96-104), simd_reduce (157-167)"]}
{"id": "C07", "title": "Width-independent reductions", "statement": "If op is associative and commutative with identity e and the default vector is splat(e), then reducing the slice lane-wise with simd_reduce from splat(e) and then reducing the lanes of the result gives the scalar fold of the whole slice, so the result does not depend on the vector width of the machine. The same holds for a zipped map-reduce when the mapped default lanes equal e.", "quantifier": "every commutative monoid, slice, and every two widths", "why_tests_cant": "Portability across widths cannot be tested on one machine.", "anchors": ["src/iters.rs: simd_reduce (105-167, footgun warning)", "src/vecs.rs: scalar_reduce (184-190)", "src/zip.rs: simd_reduce (210-221)"]}
{"id": "C08", "title": "simd_map + scalar_collect is map", "statement": "slice.simd_iter(d).simd_map(f).scalar_collect() with a lane-wise f returns exactly the Vec of f applied to each element: same length, same order, fully initialised, for every length and independent of the default vector; chains of simd_map compose.", "quantifier": "every slice, width, lane-wise function, default vector, build mode", "why_tests_cant": "The tail is written over an already stored vector and the buffer starts uninitialised; correctness depends on len mod width.", "anchors": ["src/iters.rs: SIMDMap (614-677), scalar_collect (704-734)"]}
{"id": "C09", "title": "scalar_collect for arbitrary vector functions", "statement": "For an arbitrary (not lane-wise, possibly stateful) vector closure, scalar_collect returns the concatenation of the closure's results on the full chunks followed by the last WIDTH-n lanes of its result on the padded tail.", "quantifier": "every stateful closure between vector types of equal byte size, including width-changing ones", "why_tests_cant": "Unbounded space of closures and lengths.", "anchors": ["src/iters.rs: scalar_collect (704-734), SIMDMap::end (668-676)"]}
{"id": "C10", "title": "scalar_fill writes exactly the results and nothing else", "statement": "scalar_fill(buf) with a buffer at least as long as the number of results writes result k to buf[k] and leaves every later element of buf untouched; it never writes outside the buffer.", "quantifier": "every buffer length >= result count, every source length and width", "why_tests_cant": "The overlapping tail store writes before its final position; untouched suffix must hold for all lengths.", "anchors": ["src/iters.rs: scalar_fill (737-765)"]}
{"id": "C11", "title": "scalar_fill into a short buffer is memory safe", "statement": "scalar_fill is a safe function; with a buffer shorter than the result it must panic rather than write outside the buffer.", "quantifier": "every buffer shorter than the result, debug and release", "why_tests_cant": "Out-of-bounds stores in release builds are silent.", "anchors": ["src/iters.rs: scalar_fill (737-765)", "src/vecs.rs: store_unchecked (129-132)"]}
{"id": "C12", "title": "scalar_fill_all / scalar_collect_all include the whole tail vector", "statement": "scalar_fill_all stores every full result vector and then the whole padded tail vector, touching exactly ceil(len/WIDTH)*WIDTH elements; scalar_collect_all returns those same elements in a new Vec.", "quantifier": "every slice, width and sufficiently long buffer", "why_tests_cant": "Length arithmetic differs per width; the collect_all variant never runs in the test-suite.", "anchors": ["src/iters.rs: scalar_collect_all (769-777), scalar_fill_all (780-793)"]}
{"id": "C13", "title": "simd_for_each is an in-place map", "statement": "On a fresh mutable slice iterator, simd_for_each(f) with lane-wise f replaces every element x by f(x), exactly once, keeps the length and writes nothing else; with an arbitrary f each full chunk is replaced by f(chunk) and the tail by the last lanes of f(padded tail).", "quantifier": "every slice, width, default, stateful closure", "why_tests_cant": "The tail store overlaps the previous vector, which is restored from a copy; a mistake shows only for some lengths.", "anchors": ["src/iters.rs: simd_for_each (551-580)"]}
{"id": "C14", "title": "simd_for_each on a partly consumed iterator", "statement": "Elements consumed before simd_for_each is called are left unchanged, and the remaining ones are mapped.", "quantifier": "every starting position of the iterator", "why_tests_cant": "Depends on the combination of start position, length and width.", "anchors": ["src/iters.rs: simd_for_each (551-580)"]}
{"id": "C15", "title": "Iterators are fused", "statement": "Once next() has returned None it keeps returning None, and after end() or finalize() every later next()/end() returns None, until advance wraps.", "quantifier": "every state", "why_tests_cant": "Universal over call sequences.", "anchors": ["src/iters.rs: next, end, finalize"]}
{"id": "C16", "title": "unroll(k) groups the vectors of the iterator", "statement": "unroll(k) for 1<=k<=8 yields groups whose concatenation is exactly the sequence of vectors next() would give, every group has k vectors except possibly the last, no group is empty, and the underlying iterator ends in the same state; k>8 panics.", "quantifier": "every k, slice, width", "why_tests_cant": "Group boundaries depend on vector count mod k.", "anchors": ["src/iters.rs: unroll (63-70), Unrolled::next (384-404)"]}
{"id": "C17", "title": "len() reports the number of vectors next() will still return", "statement": "As the ExactSizeIterator contract demands, len() equals the number of vectors that next() will still produce.", "quantifier": "every iterator state: fresh, partly consumed, mapped, strided", "why_tests_cant": "The contract must hold after every prefix of calls.", "anchors": ["src/iters.rs: ExactSizeIterator for SIMDIter (456-461), SIMDMap (628-633)", "src/stride.rs: len (51-56)"]}
{"id": "C18", "title": "scalar_len / vector_len / positions of mapped iterators", "statement": "scalar_len() of an iterator is its length in scalars, vector_len() in vectors, and finalize() on it leaves nothing to iterate, also for mapped and zipped iterators.", "quantifier": "every iterator built from slices with simd_map and zip", "why_tests_cant": "Unit confusion only shows for lengths >= width.", "anchors": ["src/iters.rs: SIMDSized for SIMDMap (647-653), finalize (45-48)", "src/zip.rs: scalar_len (84), finalize (99)"]}
{"id": "C19", "title": "Width-changing maps produce the right number of scalars", "statement": "If f maps vectors of S-byte scalars to equally sized vectors of T-byte scalars, collecting the map of a slice of len scalars yields exactly ceil(len*S/T) scalars when T >= S and len*S/T scalars when T <= S, and they are the concatenated results with the padded lanes removed.", "quantifier": "every pair of scalar sizes dividing the vector size, every length", "why_tests_cant": "The unfilled-lane count is rescaled with a truncating division.", "anchors": ["src/iters.rs: SIMDMap::end (668-676)", "src/zip.rs: SIMDZipMap::end (361-369)"]}
{"id": "C20", "title": "Map closures are called once per delivered vector, in order", "statement": "A stateful simd_map closure is invoked exactly once for each vector delivered by next() or end() and never when they return None, in delivery order.", "quantifier": "every stateful closure and every call history", "why_tests_cant": "Universal over histories.", "anchors": ["src/iters.rs: SIMDMap::next (618-625), end (668-676)", "src/zip.rs: SIMDZipMap"]}
{"id": "C21", "title": "Stride streams yield every count-th element", "statement": "Stream k of stride(count, defaults) over data of length len yields, through next() and end(), exactly the elements k, k+count, k+2*count, ... of the first floor(len/count)*count elements, in order, with end() padding from default k.", "quantifier": "every data, count>=1, stream k<count, width", "why_tests_cant": "Index arithmetic over three independent parameters.", "anchors": ["src/stride.rs: PackedStride::next (34-48), stride_into (115-130), scalar_len (324)", "src/iters.rs: end (525-549)"]}
{"id": "C22", "title": "Stride streams partition the data", "statement": "When count divides len, interleaving the count streams element by element reproduces the data: no element is lost or duplicated between streams.", "quantifier": "every data and count with count | len; the claim for arbitrary len", "why_tests_cant": "Unbounded lengths and counts.", "anchors": ["src/stride.rs"]}
{"id": "C23", "title": "Stride loads stay in bounds", "statement": "Every element read by next()/end()/unpack() of a stride stream lies inside the data, from every state reachable through the safe API.", "quantifier": "every data, count, stream, and every history of next/end/advance, debug and release", "why_tests_cant": "Unchecked loads; overflow states need huge advance values.", "anchors": ["src/stride.rs: next (34-48), advance (341), load_scalar_unchecked (318)"]}
{"id": "C24", "title": "Random access on a stride stream", "statement": "load_scalar(i) returns element base+i*count of the data and panics exactly when that index is outside it; load(i) returns the WIDTH consecutive stream elements starting at i and panics exactly when the last of them is outside the data.", "quantifier": "every data, count, stream and offset without usize overflow", "why_tests_cant": "Universal over offsets.", "anchors": ["src/stride.rs: load (295-298), load_unchecked (301-309), load_scalar (312)"]}
{"id": "C25", "title": "stride_two/three/four/nine agree with stride(count)", "statement": "The fixed-count constructors return exactly the streams of stride(2|3|4|9, [defaults]), and stride(count) panics iff the number of defaults differs from count.", "quantifier": "every data and defaults", "why_tests_cant": "Nine hand-copied constructors.", "anchors": ["src/stride.rs: stride_into (115-130), stride_two (133), stride_three (153), stride_four (180), stride_nine (214)"]}
{"id": "C26", "title": "Nested strides multiply", "statement": "Striding stream k of stride(m) again by n and taking stream j gives elements k+m*(j+n*i) of the data: a stride of m*n with base k+m*j.", "quantifier": "every data, m, n, k, j", "why_tests_cant": "Universal over nesting parameters.", "anchors": ["src/stride.rs: SIMDArray for PackedStride (292-320)"]}
{"id": "C27", "title": "Zipped iterators advance in lockstep", "statement": "Zipping fresh iterators over equally long slices yields tuples whose components are the vectors each iterator would yield on its own, in the same order, and end() pads every component at the same lanes; next() never reads outside any slice.", "quantifier": "every arity 2..13, every length and width", "why_tests_cant": "Only the first iterator is advanced; the others are read by position.", "anchors": ["src/zip.rs: next (248-253), end (276-281)", "src/iters.rs: UnsafeIterator (582-612)"]}
{"id": "C28", "title": "zip + simd_map + scalar_collect is map2", "statement": "(a.simd_iter(da), b.simd_iter(db), ...).zip().simd_map(f).scalar_collect() with lane-wise f over equally long slices is exactly the element-wise n-ary map.", "quantifier": "every arity, slices of equal length, lane-wise f", "why_tests_cant": "Unbounded lengths; padding lanes must never leak.", "anchors": ["src/zip.rs: SIMDZipMap (305-371), impl_iter_zip (221-303)"]}
{"id": "C29", "title": "zip rejects iterators of different length", "statement": "zip() panics whenever the zipped iterators would not yield the same number of scalars, so iterating a zip can never read outside any of the slices.", "quantifier": "every tuple of iterators: different lengths, widths, start positions", "why_tests_cant": "The check compares vector counts, so mismatches below one vector pass silently.", "anchors": ["src/zip.rs: zip (227-232), next (248-253), end (276-281)"]}
{"id": "C30", "title": "Zip honours the position of every iterator", "statement": "If the zipped iterators have already been advanced, the zip continues each from its own position.", "quantifier": "every combination of positions", "why_tests_cant": "Universal over positions.", "anchors": ["src/zip.rs: next (248-253)"]}
{"id": "C31", "title": "stride_zip de-interleaves pairs", "statement": "stride_zip() over data whose length is a multiple of 2*WIDTH yields (evens, odds) vectors in order covering all the data, and nothing at end(); for other lengths next()+end() still deliver every remaining pair, with n the number of missing pairs.", "quantifier": "every length, default and width", "why_tests_cant": "Three-way case split over leftover vectors and tail.", "anchors": ["src/stride_zip.rs: next (83-92), end (96-111)"]}
{"id": "C32", "title": "SIMDAdapter packs a scalar iterator", "statement": "Wrapping an exact-size scalar iterator in SIMDAdapter and draining it (next* then end) delivers every scalar exactly once in order.", "quantifier": "every scalar sequence and width", "why_tests_cant": "No test exercises the adapter.", "anchors": ["src/iters.rs: SIMDAdapter (216-309)"]}
{"id": "C33", "title": "Vector load/store round trip and frame", "statement": "store(v, data, off) followed by load(data, off) gives v; store changes exactly data[off..off+WIDTH]; load and store panic exactly when off+WIDTH exceeds the length; the unchecked variants agree with them whenever they do not panic.", "quantifier": "every vector, data, offset", "why_tests_cant": "Universal over offsets and contents.", "anchors": ["src/vecs.rs: load/store (112-132)"]}
{"id": "C34", "title": "Lane access laws", "statement": "extract(replace(v,i,x),i)=x, other lanes unchanged, out-of-range indices panic; splat(x).coalesce()=x; scalar_reduce folds lanes in index order; product multiplies all lanes (wrapping in release, panicking on overflow in debug); coalesce on unequal lanes panics in debug and returns lane 0 in release.", "quantifier": "every vector, index, scalar", "why_tests_cant": "Universal.", "anchors": ["src/vecs.rs: extract, replace, splat, coalesce, product, scalar_reduce (134-190)"]}
{"id": "C35", "title": "Pattern constructors", "statement": "halfs, interleave, partition(hi,lo,off) and partition_mask(off) have exactly the documented lanes for every off <= WIDTH, the mask-table read stays inside the table, and the optimized partition equals the portable one.", "quantifier": "every vector type (30 width/size pairs), every off", "why_tests_cant": "Tables are machine-generated; masks are read at computed byte offsets.", "anchors": ["src/arch/x86/vec_patterns.rs", "src/vec_patterns.rs"]}
{"id": "C36", "title": "partition_mask never reads outside its table", "statement": "Pattern::partition_mask is a safe function; for any off it must either return a mask or panic.", "quantifier": "every off in usize, debug and release", "why_tests_cant": "Unchecked only by debug assertions.", "anchors": ["src/arch/x86/vec_patterns.rs: partition_mask"]}
{"id": "C37", "title": "merge_* select the documented lanes, on both back-ends", "statement": "merge_halves, merge_interleaved and merge_partitioned(other,off) return exactly the documented lane selection, and the byte-blend implementation equals the portable implementation bit for bit for every off < WIDTH.", "quantifier": "all vectors, all off, all scalar sizes", "why_tests_cant": "2^128 or more inputs.", "anchors": ["src/intrin/merge.rs (52-115)", "src/arch/x86/intrin/merge.rs"]}
{"id": "C38", "title": "eq_mask / ne_mask", "statement": "Every lane of eq_mask is all ones when the lanes are equal and zero otherwise, ne_mask is its complement, and optimized equals portable.", "quantifier": "all integer vectors", "why_tests_cant": "Exhaustive inputs infeasible.", "anchors": ["src/intrin/eq.rs", "src/arch/x86/intrin/eq.rs"]}
{"id": "C39", "title": "min / max", "statement": "Lane-wise min and max for integers agree on both back-ends; float min/max agree unless a lane is NaN or zeros of opposite sign meet.", "quantifier": "all vectors", "why_tests_cant": "NaN and signed zero inputs.", "anchors": ["src/intrin/cmp.rs", "src/arch/x86/intrin/cmp.rs"]}
{"id": "C40", "title": "Saturating arithmetic", "statement": "saturating_add/sub return the exact result clamped to the lane type, on both back-ends; saturating_hadd/hsub clamp each pair's exact sum/difference.", "quantifier": "all 8- and 16-bit vectors; all widths for the portable version", "why_tests_cant": "Boundary combinations.", "anchors": ["src/arch/x86/intrin/saturating_add.rs", "src/arch/x86/intrin/saturating_sub.rs", "src/arch/x86/intrin/saturating_hadd.rs"]}
{"id": "C41", "title": "hadd / hsub layout", "statement": "hadd(a,b) is [a0+a1, b0+b1, a2+a3, b2+b3, ...] (hsub with differences), and the shuffle + horizontal-add implementations produce exactly this layout.", "quantifier": "all vectors of every supported type", "why_tests_cant": "Tests use two repeated values per vector, which hides most lane permutations.", "anchors": ["src/intrin/hadd.rs", "src/arch/x86/intrin/hadd.rs", "src/arch/x86/intrin/hsub.rs", "src/intrin/macros.rs: hop"]}
{"id": "C42", "title": "sum / sum_upcast", "statement": "sum() equals the lane sum modulo the lane type, and sum_upcast() equals the exact lane sum as i64, whichever back-end computes them.", "quantifier": "all integer vectors", "why_tests_cant": "Overflowing sums; tests use splats of small values only.", "anchors": ["src/intrin/sum.rs", "src/arch/x86/intrin/sum.rs"]}
{"id": "C43", "title": "count_ones / count_zeroes", "statement": "count_ones() is the number of set bits of the vector and count_zeroes() the number of clear ones; they add up to the bit size of the vector; the nibble-table implementation agrees with the portable one.", "quantifier": "all vectors of all types", "why_tests_cant": "2^128+ inputs.", "anchors": ["src/intrin/popcnt.rs", "src/arch/x86/intrin/popcnt.rs"]}
{"id": "C44", "title": "Byte-order conversions", "statement": "swap_bytes reverses the bytes of each lane, is an involution, to_be/from_be are inverse to each other and to_le/from_le are the identity on little-endian targets; the byte-shuffle implementation agrees with the portable one.", "quantifier": "all vectors", "why_tests_cant": "Exhaustive inputs infeasible.", "anchors": ["src/intrin/endian.rs", "src/arch/x86/intrin/endian.rs"]}
{"id": "C45", "title": "Transmutes round-trip", "statement": "be_*s reinterpretations preserve all bits: converting to any lane type of the same vector size and back is the identity, and little-endian lane grouping is respected.", "quantifier": "all integer vectors, all pairs of lane types", "why_tests_cant": "Exhaustive inputs infeasible.", "anchors": ["src/intrin/transmute.rs", "src/arch/x86/intrin/transmute.rs"]}
{"id": "C46", "title": "upcast preserves values and order", "statement": "upcast() returns two vectors which concatenated are the lanes of self in order, each with the same numeric value, on both back-ends.", "quantifier": "all integer vectors", "why_tests_cant": "Exhaustive inputs infeasible; lane-crossing shuffles on 256-bit vectors.", "anchors": ["src/arch/x86/intrin/upcast.rs"]}
{"id": "C47", "title": "saturating_downcast saturates and keeps order", "statement": "a.saturating_downcast(b) has the clamped lanes of a followed by the clamped lanes of b, for every type and back-end.", "quantifier": "all integer vectors", "why_tests_cant": "Large unsigned lanes and 256-bit lane order are never tested with distinguishing values.", "anchors": ["src/intrin/downcast.rs", "src/arch/x86/intrin/downcast.rs"]}
{"id": "C48", "title": "destride de-interleaves", "statement": "a.destride_two(b) returns the even-indexed and the odd-indexed elements of a++b, and destride_four the elements at index 0,1,2,3 mod 4 of a++b++c++d, on every back-end.", "quantifier": "all vectors", "why_tests_cant": "Lane-crossing permutes on 256-bit vectors.", "anchors": ["src/intrin/destride.rs", "src/arch/x86/intrin/destride.rs"]}
{"id": "C49", "title": "abs", "statement": "abs() returns the exact absolute value as an unsigned lane, including the minimum value; for floats it clears the sign bit and changes nothing else (NaN payload included).", "quantifier": "all vectors", "why_tests_cant": "Exhaustive inputs infeasible.", "anchors": ["src/arch/x86/intrin/abs.rs"]}
{"id": "C50", "title": "round / ceil / floor / trunc agree across back-ends", "statement": "ceil, floor, trunc and round return the documented integral value whichever back-end is compiled in.", "quantifier": "all finite floats, infinities and NaNs", "why_tests_cant": "Ties only occur at half-integers.", "anchors": ["src/arch/x86/intrin/round.rs"]}
{"id": "C51", "title": "end() after some scalars were consumed from a short slice", "statement": "On a slice no longer than one vector, end() still hands out the remaining elements when one or more scalars were already consumed through unpack().next().", "quantifier": "every slice of at most WIDTH elements and every position 1..len-1, debug and release", "why_tests_cant": "The tests only call end() on fresh short slices or after whole vectors.", "anchors": ["src/iters.rs"]}
{"id": "C52", "title": "Groups returned by unroll stay valid", "statement": "A group of vectors handed out by an unrolled iterator keeps its contents while later groups are requested.", "quantifier": "every unrolled iterator and group", "why_tests_cant": "Tests consume each group before asking for the next one.", "anchors": ["src/iters.rs"]}
{"id": "C53", "title": "flip swaps neighbouring lanes", "statement": "flip() exchanges lanes 2i and 2i+1 of every vector, on both back-ends, and flipping twice is the identity.", "quantifier": "all vectors of every type with more than one lane", "why_tests_cant": "Exhaustive inputs infeasible; 256-bit shuffles work per 128-bit half.", "anchors": ["src/intrin/swizzle.rs", "src/arch/x86/intrin/swizzle.rs"]}
{"id": "C54", "title": "merge_partitioned at off = WIDTH", "statement": "merge_partitioned(other, WIDTH) returns self unchanged on both back-ends, as merging with an empty second part should.", "quantifier": "all vectors of all types", "why_tests_cant": "Boundary offset; the byte-blend and portable code paths are never compared at it.", "anchors": ["src/intrin/merge.rs", "src/arch/x86/intrin/merge.rs"]}
{"id": "C55", "title": "Optimised code only uses instructions its feature gate provides", "statement": "An operation compiled for a machine because target feature F is enabled executes only instructions that F guarantees, so it cannot hit an illegal instruction.", "quantifier": "every optimised implementation of every operation", "why_tests_cant": "Needs every combination of machine and feature flags.", "anchors": ["src/arch/x86/intrin/*.rs: where clauses"]}
{"id": "C56", "title": "sqrt is lane-wise", "statement": "sqrt() gives the correctly rounded (IEEE-754) square root of every lane, whichever back-end is compiled in.", "quantifier": "all vectors of every float type", "why_tests_cant": "Exhaustive inputs infeasible.", "anchors": ["src/arch/x86/intrin/sqrt.rs", "src/arch/unknown/intrin/sqrt.rs"]}
{"id": "C57", "title": "Every feature combination defines every operation exactly once", "statement": "Whatever set of target features a build enables, each method of each operation on each vector type has exactly one definition: the crate neither loses an operation nor defines it twice.", "quantifier": "all sets of target features, all methods of the x86 back-end", "why_tests_cant": "A test run fixes one feature set; there are 2^n of them.", "anchors": ["src/arch/x86/intrin/*.rs, src/arch/x86/vec_patterns.rs: cfg attributes", "src/intrin/macros.rs"]}
{"id": "C58", "title": "Natural vector types agree on the register size", "statement": "In every build each scalar type has exactly one natural vector type (u8s, f32s, ...; also Packable::Vector) and all of them have the same size in bytes: 32 when AVX2 is enabled, 16 otherwise.", "quantifier": "all sets of target features, all ten scalar types", "why_tests_cant": "A test run fixes one feature set.", "anchors": ["src/arch/x86/vecs.rs", "src/vecs.rs: impl_packed!"]}
{"id": "C59", "title": "Safe loads and stores of portable vectors stay inside the slice", "statement": "load(slice, offset), store(slice, offset), load_unaligned and store_unaligned of the portable vector types are safe functions: on every slice and offset they either transfer exactly the lanes at the offset, leaving the rest of the slice alone, or panic; they never touch memory outside the slice.", "quantifier": "all portable vector types, slices, offsets and vectors", "why_tests_cant": "All combinations of lengths and offsets; an out-of-bounds copy may go unnoticed in a test.", "anchors": ["src/arch/unknown/vecs.rs: impl_packed_type! load, store, load_unaligned, store_unaligned, *_unchecked"]}
{"id": "C60", "title": "Operators of portable vectors are lane-wise", "statement": "Every operator trait (and assigning operator trait) of a portable vector applies the scalar operator of that name to each pair of lanes, with Rust's scalar overflow, division and shift rules; the whole operation panics exactly when one of the lanes would; every type has every operator its element has.", "quantifier": "all portable vector types, operators, vectors, both build modes", "why_tests_cant": "30 types x 20 operators x all inputs; one wrong symbol in one row of a macro table would be missed.", "anchors": ["src/arch/unknown/vecs.rs: impl_ops!, impl_assignops!"]}
{"id": "C61", "title": "Casts of portable vectors convert each lane", "statement": "as_*() converts every lane as the scalar cast does: integers keep their low bits, floats are truncated and saturate (NaN becomes 0), integers become the nearest float, ties to even; a cast exists between any two types of the same shape and is named after its target.", "quantifier": "all casts, all vectors", "why_tests_cant": "Exhaustive inputs infeasible; rounding of large integers depends on rare bit patterns.", "anchors": ["src/arch/unknown/vecs.rs: impl_cast!"]}
{"id": "C62", "title": "From between portable integer vectors preserves the bytes", "statement": "From keeps every byte of the vector in place, converting back restores it, and it exists exactly between different integer vectors of the same size.", "quantifier": "all pairs of portable integer vector types, all vectors", "why_tests_cant": "Exhaustive inputs infeasible.", "anchors": ["src/arch/unknown/vecs.rs: impl_from!"]}
{"id": "C63", "title": "Equality of portable vectors", "statement": "Two portable vectors compare equal exactly when all pairs of lanes do, IEEE equality for floats; equality is symmetric and transitive, and reflexive on vectors without NaN.", "quantifier": "all portable vector types and vectors", "why_tests_cant": "Exhaustive inputs infeasible; NaN and signed zero.", "anchors": ["src/arch/unknown/vecs.rs: impl PartialEq"]}
{"id": "C64", "title": "Construction and lane access of portable vectors", "statement": "new puts its arguments in the lanes in order, splat fills all lanes, len is the number of lanes, extract and replace read and change exactly the lane named and panic on an index that is not a lane.", "quantifier": "all portable vector types, vectors, indices", "why_tests_cant": "Thirty macro-generated types with up to 64 parameters; every index.", "anchors": ["src/arch/unknown/vecs.rs: new, len, splat, extract, replace"]}
{"id": "C65", "title": "Natural vectors support every meaningful operation", "statement": "In every build, each scalar type has a natural vector (u8s, ..., f64s) and that vector has every operation that is meaningful for the type, and no operation that is not.", "quantifier": "all consistent feature sets, scalar types and operations", "why_tests_cant": "A build compiles one feature combination; the set of combinations is never built exhaustively.", "anchors": ["src/arch/x86/vecs.rs: impl_packed!", "src/arch/x86/intrin/*.rs", "src/arch/x86/vec_patterns.rs"]}
{"id": "C66", "title": "Both back-ends implement the same operations of 128-bit vectors", "statement": "An operation of a 128-bit vector exists on the x86 back-end exactly when it exists on the portable one, so a program that compiles on one target compiles on the other.", "quantifier": "all scalar types and operations", "why_tests_cant": "Tests run on one target; a missing method is a compile error on another.", "anchors": ["src/arch/x86/intrin/*.rs", "src/arch/unknown/intrin/*.rs"]}
{"id": "C67", "title": "recip estimates the reciprocal", "statement": "recip() of a float vector gives in every lane an estimate of 1/x with a relative error of at most 1.5*2^-12 for normal x that are not too large, infinities of the same sign for zeros, zeros for infinities and NaN for NaN; the portable version is the correctly rounded quotient; the two versions therefore agree up to twice that error.", "quantifier": "all vectors of every type with recip, both back-ends, any instruction meeting Intel's bound", "why_tests_cant": "Exhaustive inputs infeasible; the instruction differs between processors.", "anchors": ["src/arch/x86/intrin/recip.rs", "src/arch/unknown/intrin/recip.rs", "src/intrin/recip.rs"]}
{"id": "C68", "title": "rsqrt estimates the reciprocal square root", "statement": "rsqrt() gives in every lane (and for scalars) an estimate of 1/sqrt(x) with a relative error of at most 1.5*2^-12 for positive normal x, NaN for negative x and NaN, infinity of the same sign for zero and zero for +infinity, with the instruction and with the portable sqrt().recip(), in spite of its two roundings.", "quantifier": "all vectors of every type with rsqrt, both back-ends, any instruction meeting Intel's bound", "why_tests_cant": "Exhaustive inputs infeasible; the instruction differs between processors.", "anchors": ["src/arch/x86/intrin/rsqrt.rs", "src/arch/unknown/intrin/rsqrt.rs", "src/intrin/rsqrt.rs"]}
{"id": "C69", "title": "Float sums do not depend on the instruction set", "statement": "sum() of a float vector is the same number whichever back-end computes it.", "quantifier": "all float vectors of the types with an optimised sum, IEEE arithmetic", "why_tests_cant": "Depends on the rounding of every partial sum in both orders of addition.", "anchors": ["src/intrin/sum.rs", "src/arch/x86/intrin/sum.rs"]}
{"id": "C70", "title": "Debug builds turn every misuse into a panic", "statement": "In a debug build no safe call can read or write outside its data: whatever iterator the library's constructors and adapters build (slice iterators, strides, zips, maps, nested to any depth), whatever history of calls is made on it or on its components, with any arguments, and whichever consumer is run on it afterwards, the outcome is a value or a panic and never undefined behaviour.", "quantifier": "all iterators that can be built, all histories of any length, all arguments, all consumers, closures, buffers and sizes; debug builds", "why_tests_cant": "Infinitely many nestings and histories; an out-of-bounds access of a few lanes is not observed by a test.", "anchors": ["src/iters.rs", "src/stride.rs", "src/zip.rs", "src/stride_zip.rs", "src/into_iters.rs"]}
{"id": "C71", "title": "scalar_collect collects what is left", "statement": "Calling scalar_collect() on an iterator (or a chain of lane-wise maps) from which some elements were already taken returns exactly the mapped remaining elements.", "quantifier": "all slices longer than a vector, all numbers of consumed scalars, all widths and builds, chains of maps of any depth", "why_tests_cant": "The result depends on the consumed count modulo the width; tests collect fresh iterators.", "anchors": ["src/iters.rs: IntoScalar::scalar_collect, len", "src/iters.rs: SIMDMap"]}
{"id": "C72", "title": "Whole programs compute what their scalar versions compute", "statement": "The programs the documentation shows give the scalar result for every input: mapping abs over a slice, zipping any number of equally long slices or any stride of one slice and mapping a lane-wise closure, reducing integers with + and sum(), and the inner product of two slices. The result does not depend on the vector width, the padding or the state kept by the closure; for strides there is one result per complete group of consecutive elements.", "quantifier": "all slices, lengths, default vectors, lane-wise closures with any captured state, numbers of zipped iterators, vector types, builds; integer sums in release builds", "why_tests_cant": "Doc tests run constant arrays of a few lengths on one target.", "anchors": ["src/lib.rs: documentation examples", "examples/main.rs", "src/iters.rs", "src/zip.rs", "src/stride.rs"]}
{"id": "C73", "title": "A closure with state is called once per vector", "statement": "A closure passed to simd_map that keeps state is called exactly once per vector, in order, the padded last vector included: scalar number k of the collected result is mapped under the state left by k / WIDTH calls, and ceil(len / WIDTH) calls are made in all.", "quantifier": "all slices, default vectors, closures and initial states, all vector types and builds", "why_tests_cant": "The documentation says results may differ between widths; only a general statement says how.", "anchors": ["src/lib.rs: Portability section", "src/iters.rs: SIMDMap next, end", "src/iters.rs: IntoScalar::scalar_collect"]}
{"id": "C74", "title": "The exact width dependence of reductions with constants", "statement": "simd_reduce(splat(a), |acc, v| acc + v + splat(k)).sum() with default vector splat(d) gives the sum of the slice, plus a for every lane, plus d for every lane of padding, plus k for every lane of every vector visited, in the lane type. It is independent of the width exactly in so far as a, d and k are zero.", "quantifier": "all integer lane types, slices, constants, vector types, portable and optimised sums; release builds", "why_tests_cant": "The documentation warns about it with one literal example; the dependence on length and width is never tested.", "anchors": ["src/lib.rs: Portability section", "src/iters.rs: simd_reduce", "src/intrin/sum.rs"]}
{"id": "C75", "title": "Collecting over stride_zip gives one result per pair of neighbours", "statement": "slice.stride_zip(d).simd_map(|(a, b)| f(a, b)).scalar_collect() returns f of every complete pair of neighbouring scalars of the slice, in order, whatever the length and whatever default is passed.", "quantifier": "all slices, lengths, default vectors, lane-wise closures, vector types and builds", "why_tests_cant": "Benchmarks and tests use lengths that are multiples of two vectors, the only lengths for which it holds.", "anchors": ["src/stride_zip.rs: next, end, len", "src/iters.rs: IntoScalar::scalar_collect", "benches/usage.rs: stride_zip"]}
{"id": "C76", "title": "What is in memory after a panic", "statement": "If the closure panics during scalar_fill, scalar_fill_all or simd_for_each, at any call, the slice handed in contains the results of the calls that returned, whole vectors from the start, and is otherwise unchanged. If scalar_fill panics because the buffer is too short, the whole vectors that fit have been written (the scalars that fit, for slices shorter than a vector) and nothing else. The same holds for scalar_fill_all and a buffer without room for the padded last vector.", "quantifier": "all slices, closures, states and crash points; all vector types and builds (short buffers: debug builds, or slices shorter than a vector)", "why_tests_cant": "A test exercises one crash point and rarely looks at the buffer after catching a panic.", "anchors": ["src/iters.rs: IntoScalar::scalar_fill, scalar_fill_all", "src/iters.rs: SIMDIteratorMut::simd_for_each", "src/iters.rs: SIMDMap next, end"]}
{"id": "C77", "title": "Storing vectors in a for loop", "statement": "for (i, v) in slice.simd_iter(d).enumerate() { f(v).store(&mut out, i * width) } writes f of vector number i at i*WIDTH. Since a for loop does not call end(), the scalars after the last whole vector are not processed and their place in out is unchanged. If out is too short the loop panics at the first vector that does not fit, in every build, having written the ones before it; it never writes outside out.", "quantifier": "all slices, vector functions, buffers, vector types and builds", "why_tests_cant": "The benchmarks do this for one length that is a multiple of every width, and do not look at the result.", "anchors": ["src/iters.rs: SIMDIter next", "src/vecs.rs: Packed::store", "benches/usage.rs: for_fill_simd"]}
{"id": "C78", "title": "Operations do not depend on the target features", "statement": "Whatever target features a program is compiled with, each of these operations has exactly one definition for each vector type, and calling it returns the documented result: eq_mask, min, max (floats: without NaN or opposite zeros), saturating_add/sub, ceil, floor, trunc, sqrt, merge_halves, merge_interleaved, merge_partitioned (off < WIDTH), flip, swap_bytes, hadd, hsub (no overflow, in debug builds), saturating_hadd/hsub, abs, upcast, saturating_downcast (128-bit, signed or float lanes), destride_two (except 256-bit byte vectors), sum (integers, release), sum_upcast (up to 32 bits, except i8).", "quantifier": "all sets of target features, all vector types of the x86 back-end, all lane values, both build modes", "why_tests_cant": "A test run exercises one set of features, the one of the machine or of the CI target; the code under every other attribute is not even compiled.", "anchors": ["src/intrin/macros.rs: rust_fallback_impl, rust_fallback_impl_binary", "src/intrin/eq.rs: rust_fallback_eq", "src/intrin/merge.rs: impl_packed_merge", "src/intrin/swizzle.rs: impl_packed_swizzle", "src/intrin/endian.rs: impl_packed_swap_bytes", "src/arch/x86/intrin: hadd.rs, hsub.rs, abs.rs, upcast.rs, downcast.rs, destride.rs, sum.rs"]}
{"id": "C79", "title": "Chained maps", "statement": "Two maps one after the other, simd_map(f).simd_map(g), over a vector iterator or after a zip, are one map with the composed closure: every consumer (scalar_collect, scalar_fill, scalar_collect_all, scalar_fill_all, simd_reduce, simd_do_each and the for loop) returns the same values, leaves the same closure states and panics or overflows in the same cases. Mapping with the identity changes nothing. Reducing a mapped iterator is reducing the iterator with the composed accumulator.", "quantifier": "all iterators, closures and closure states, lane sizes, lengths and builds", "why_tests_cant": "It is an equation between two programs for every closure and every length; a test checks one closure and one length.", "anchors": ["src/iters.rs: SIMDIterator::simd_map, SIMDMap", "src/zip.rs: SIMDZippedIterator::simd_map", "src/into_iters.rs: scalar_collect, scalar_fill"]}
{"id": "C80", "title": "Storing unrolled groups in a for loop", "statement": "for (i, v) in slice.simd_iter(d).unroll(k).enumerate(), with a body that computes f(v[0]), .., f(v[k-1]) and stores the result for v[idx] at vector number i*k+idx of out, writes f of vector number j at j*WIDTH for every whole vector and nothing else. It returns if the number of whole vectors is a multiple of k; otherwise it panics when it indexes the last, shorter group, after having stored all whole vectors. If out is too short it panics at the first vector that does not fit, having written the ones before it.", "quantifier": "all slices, vector functions, buffers, k from 1 to 8, vector types and builds", "why_tests_cant": "The benchmarks run on one length that is a multiple of everything; the panic depends on the number of vectors modulo k.", "anchors": ["src/iters.rs: unroll, Unrolled::next", "src/vecs.rs: Packed::store", "benches/usage.rs: for_unrolled_simd, high_latency_unrolled"]}
{"id": "C81", "title": "The unrolled benchmarks compute what the plain ones do", "statement": "benches/usage.rs for_unrolled_simd and high_latency_unrolled leave in out what for_fill_simd and high_latency_for do: f of vector number j at j*WIDTH.", "quantifier": "all slices whose number of vectors is a multiple of k, all k and vector functions", "why_tests_cant": "The benchmarks do not look at out, and their input is constant, so that even comparing one block would not show it.", "anchors": ["benches/usage.rs: for_unrolled_simd, high_latency_unrolled", "src/iters.rs: Unrolled::next"]}
{"id": "C82", "title": "Kernels over zipped slices", "statement": "For slices of equal length, zip().simd_map(f).scalar_fill(&mut buf) with a closure that works lane by lane leaves f of the elements number k in buf[k] for every k below the length and does not touch the rest of buf. zip().simd_map(f).simd_reduce(splat(0), |a, v| a + v).sum() is the sum in the lane type of f over the elements, plus f of the defaults for each lane of padding. With (a - b) * (a - b) and equal defaults it is exactly the sum of the squared differences.", "quantifier": "any number of slices, all contents, lengths, closures, integer lane types, vector types and both back-ends", "why_tests_cant": "tests/kernel.rs runs constant slices of up to 15 elements, with zero defaults.", "anchors": ["src/zip.rs: Zip, SIMDZippedIterator::simd_map", "src/into_iters.rs: scalar_fill", "src/iters.rs: simd_reduce", "src/intrin/sum.rs", "tests/kernel.rs"]}
{"id": "C83", "title": "A program returns the same on every target", "statement": "A program that takes vectors of the natural size (i8s, u32s, ...) from one slice, from slices zipped together or from the strides of a slice, maps them with a closure made of +, -, *, &, |, ^, constants, min, max, saturating_add, saturating_sub, eq_mask, ne_mask, abs, sqrt, floor, ceil, trunc, swap_bytes and be_* reinterpretations of equal lane size, and collects the scalars, compiles in every build, does not panic, and returns what the scalar program returns element by element: whatever target features are enabled, whether registers have 128 or 256 bits, and whatever the length. Summing the slice with simd_reduce and sum gives the sum in the element type in every release build.", "quantifier": "all such closures (any nesting, any number of arguments), all element types, all sets of target features of a real machine, debug and release, all slices and defaults", "why_tests_cant": "A test binary is one build; whether two builds agree on all inputs cannot be seen from one of them, and the closures are unboundedly many.", "anchors": ["src/vecs.rs: impl_packed!, Packable::Vector", "src/arch/x86/vecs.rs", "src/arch/x86/intrin: cmp.rs, eq.rs, saturating_add.rs, saturating_sub.rs, abs.rs, sqrt.rs, round.rs, endian.rs, sum.rs", "src/intrin/transmute.rs", "src/into_iters.rs: scalar_collect", "src/zip.rs", "src/stride.rs", "examples/main.rs"]}
{"id": "C84", "title": "Laws between operations", "statement": "In every build: splat(hi) merged with splat(lo) is the pattern vector of the same name (merge_halves gives halfs, merge_interleaved gives interleave, merge_partitioned gives partition); flip twice and swap_bytes twice give the vector back, and flip turns interleave(hi, lo) into interleave(lo, hi); min and max hold the two lanes in order; for unsigned lanes max - min is the sum of the two saturating differences, one of which is 0; eq_mask is all ones exactly for equal integer vectors; and in release builds the sum of a.hadd(b) is the sum of all lanes of a and b.", "quantifier": "all sets of target features, all vector types that have the operations, all lanes", "why_tests_cant": "Each law relates two or three calls that a build may compile to different instructions; the lanes are too many to enumerate and a test binary is one build.", "anchors": ["src/arch/x86/intrin/merge.rs", "src/arch/x86/vec_patterns.rs", "src/arch/x86/intrin: cmp.rs, eq.rs, saturating_sub.rs, hadd.rs, sum.rs, swizzle.rs, endian.rs", "src/intrin: merge.rs, cmp.rs, hadd.rs"]}
{"id": "C85", "title": "upcast followed by saturating_downcast gives the vector back", "statement": "For every integer vector, upcast returns two vectors and saturating_downcast of these two is the original vector, because no lane of them is out of range.", "quantifier": "all sets of target features, all integer vector types with both conversions, all lanes", "why_tests_cant": "It fails only for particular builds (AVX2) and particular lanes (u32 above 2^31 - 1), which the tests in the repository do not combine.", "anchors": ["src/arch/x86/intrin/upcast.rs", "src/arch/x86/intrin/downcast.rs", "src/intrin/upcast.rs", "src/intrin/downcast.rs"]}
{"id": "C86", "title": "Sums of float slices in every build", "statement": "l.simd_iter(zero).simd_reduce(zero, |a, v| a + v).sum() for a slice of f32 or f64 returns in every build, debug or release: the exact sum, if the values are multiples of a power of two and their magnitudes add up to less than 2^24 (f32) or 2^53 (f64) times that power; otherwise, if overflow is excluded, a finite number whose distance from the exact sum is at most ((1 + u)^n - 1) times the sum of the magnitudes, where u is 2^-24 or 2^-53 and n is the number of vectors plus the number of lanes; and NaN, if the slice contains a NaN.", "quantifier": "all sets of target features, build modes, slice lengths and floats", "why_tests_cant": "The order of the additions depends on the target and on the length, so no expected value can be written in a test; the bound must hold for every order a build chooses and for all floats.", "anchors": ["src/iters.rs: simd_reduce, SIMDIter", "src/arch/x86/intrin/sum.rs", "src/intrin/sum.rs", "src/arch/x86/vecs.rs"]}
{"id": "C87", "title": "Trace messages appear once per thread", "statement": "In a build with the feature trace, the lines a thread prints are the messages of the code it runs, without repetitions and in the order of their first execution; while file and output work, the debug file holds the same lines of each thread, each before it is printed. Whatever fails, no thread prints a line twice, so a message appears at most once per thread.", "quantifier": "all numbers of threads, sequences of traced calls, schedules, and failures of the debug file and the output", "why_tests_cant": "It is a statement about all interleavings of threads and all points where a write can fail.", "anchors": ["src/debug.rs: OUTPUT_GUARD, debug_append_log, debug_output_once, fallback, optimized"]}
{"id": "C88", "title": "A reduction whose operation is associative and commutative returns the sequential fold in every build", "statement": "Let the closure of simd_reduce compute, in every lane, an operation on scalars that is associative and commutative with a unit; let the accumulator start with the unit in every lane, and let the default of the iterator be the unit (or, behind a simd_map, a number the mapping sends to the unit). Then scalar_reduce of the result with the same operation returns what a plain loop over the (mapped) elements of the slice returns: it does not depend on the registers of the target, on the number of lanes, nor on how much of the last vector is filled. In particular the minimum and the maximum of a slice of integers of up to 32 bits are elements of the slice and bound all of it, the saturating total of u8 or u16 is the sum or the greatest number of the type, the wrapping product is the product modulo the type, and folding with &, | or ^ gives the bitwise combination of all elements. The same holds for zipped slices behind a simd_map, for instance the wrapping scalar product of two slices.", "quantifier": "all targets, element types, closures of the language of C83, operations with these laws, slices, defaults, states of the mapping closure; every build profile", "why_tests_cant": "whether lanes are missed, counted twice or mixed with the padding depends on the length of the slice modulo a width that changes with the target; a test runs on one target and a few lengths", "anchors": ["src/iters.rs: SIMDIterator::simd_reduce", "src/vecs.rs: Packed::scalar_reduce, impl_packed!", "src/arch/x86/intrin/cmp.rs, src/arch/x86/intrin/saturating_add.rs", "src/iters.rs: SIMDMap"]}
{"id": "C89", "title": "Inner products of float slices in every build", "statement": "(a.simd_iter(zero), b.simd_iter(zero)).zip().simd_reduce(zero, |acc, (x, y)| acc + x * y).sum() for two slices of f32 or f64 of equal length returns in every build, debug or release: the exact inner product, if the exact products are multiples of a power of two and their magnitudes add up to less than 2^24 (f32) or 2^53 (f64) times that power, so in particular for whole numbers below that bound; otherwise, if overflow is excluded, a finite number whose distance from the exact inner product is at most ((1 + u)^(n + 1) - 1) times the sum of the magnitudes of the products plus half the smallest positive float times (1 + u)^n per element (underflow), where u is 2^-24 or 2^-53 and n is the number of vectors plus the number of lanes; and NaN, if there is a NaN or an infinity meets a zero. Moreover, for any lane types and any closure, reducing two zipped slices with a closure that first combines the two vectors lane by lane is reducing the slice of combined elements.", "quantifier": "all sets of target features, build modes, slice lengths and floats; for the last sentence all element types, lane functions, accumulators and closures", "why_tests_cant": "The order of the additions depends on the target and on the length, so no expected value can be written in a test; the bound must hold for every order a build chooses and for all floats, underflowing products included.", "anchors": ["src/iters.rs: simd_reduce", "src/zip.rs: SIMDZip, zip", "src/arch/x86/intrin/sum.rs", "src/intrin/sum.rs", "tests/zip.rs: zip_simd_reduce"]}
{"id": "C90", "title": "Minimum and maximum of float slices in every build", "statement": "s.simd_iter(u).simd_reduce(u, |a, v| a.max(v)).scalar_reduce(f::NEG_INFINITY, f::max), with u minus infinity in every lane, on a slice of f32 or f64 without NaN returns an element of the slice that no element exceeds, in every build and for every length (minus infinity if the slice is empty); the same for min with plus infinity. Zeros of opposite sign are equal, so either may be returned. With NaN in the slice this is lost: on targets that have the instruction the result can be the infinity although the slice holds numbers, on others NaN is skipped.", "quantifier": "all sets of target features, build modes, slice lengths and floats without NaN; for the last sentence all numbers, NaNs and targets", "why_tests_cant": "vector min and max differ between targets on zeros of opposite sign and NaN, and which elements meet in a lane depends on the target and the length; a test runs on one target and a few lengths", "anchors": ["src/arch/x86/intrin/cmp.rs: min, max", "src/intrin/cmp.rs", "src/iters.rs: simd_reduce", "src/vecs.rs: Packed::scalar_reduce"]}
{"id": "C91", "title": "The float pipelines of the example return the same in every build", "statement": "v.simd_iter(d).simd_map(|v| f32s(9.0) * v.abs().sqrt().rsqrt().ceil().sqrt() - f32s(4.0) - f32s(2.0)).scalar_collect() (examples/main.rs) returns 3.0 for every element in every build, whatever RSQRTPS returns within Intel's error bound, if the elements are finite and of magnitude at least 1.0015, and so does the scalar version of the program; the bound on the magnitudes is needed, since for 1.0 the builds with RSQRTPS may return something else. v.simd_iter(zero).simd_reduce(zero, |a, v| a + v.abs().sqrt().sqrt().floor()).sum() on finite f32 or f64 returns exactly the sum of the whole parts of the rounded fourth roots in every build, if that is less than 2^24 or 2^53. More generally reducing with |a, v| a + g(v), g any closure of the library's lanewise operations which maps the default to zero, adds what reducing the mapped slice adds, and the sum is exact if g gives whole numbers whose magnitudes add up to less than that bound.", "quantifier": "all sets of target features, build modes, slice lengths, finite floats of the stated magnitudes and functions RSQRTPS within the specified error; for the last sentence all closures of the language", "why_tests_cant": "rsqrt is an estimate on some targets and exact on others, and the order of the additions depends on the target and the length; a test runs on one processor", "anchors": ["examples/main.rs", "src/arch/x86/intrin/rsqrt.rs", "src/intrin/rsqrt.rs", "src/arch/x86/intrin/sqrt.rs", "src/arch/x86/intrin/round.rs", "src/arch/x86/intrin/abs.rs", "src/iters.rs: simd_reduce", "src/into_iters.rs"]}
{"id": "C92", "title": "Kernels that compute with wider lanes", "statement": "A program that maps |v| { let (a, b) = v.upcast(); f(a).saturating_downcast(f(b)) } over a slice of 8-, 16- or 32-bit integers (or the same with several vectors taken from zipped slices or from the strides of one slice, as the benchmark zip_simd does), f any closure of the library's lanewise operations, and collects the scalars returns for every element f of it computed in the wider type and saturated to the narrow one, in every build.", "quantifier": "all closures f, element types, slices, defaults, numbers of slices or strides, sets of target features, debug and release", "why_tests_cant": "whether it holds depends on the target features, on the position of the element in its vector and on the value of the wide result; a test runs on one target with a few values", "anchors": ["benches/usage.rs: zip_simd, base100_enc_simd", "src/arch/x86/intrin/upcast.rs", "src/arch/x86/intrin/downcast.rs", "src/vecs.rs", "src/into_iters.rs: scalar_collect", "src/zip.rs", "src/stride.rs"]}
{"id": "C93", "title": "Programs that write to memory leave the same in it on every target", "statement": "simd_for_each(|v| *v = closure(v)) on a slice of any primitive type, with a closure of the language of C83, replaces every element by what the scalar program returns for it; simd_map(closure).scalar_fill(&mut buf) over one slice or over slices zipped together writes what the scalar program returns for every element to the start of the buffer and leaves the rest of the buffer as it was. In every build, whatever the register size, the length and the default vector, and without a panic.", "quantifier": "all closures of the language, element types, slices, buffers that are long enough, defaults, numbers of zipped slices, sets of target features of a real machine, debug and release", "why_tests_cant": "the code that runs and the part of the memory that is written by each store depend on the target, the length and the default; a test runs on one target", "anchors": ["src/iters.rs: simd_for_each, scalar_fill", "src/zip.rs", "src/vecs.rs", "src/intrin", "examples/main.rs"]}
{"id": "C94", "title": "Programs on targets without SIMD support", "statement": "On a target that is not x86, a program that maps a closure of the language of C83 over a slice, over slices zipped together or over the strides of one slice, and collects the scalars compiles, and in a release build returns for every element what the scalar program returns for it - the same as on every x86 target. In a debug build the closure panics exactly when an integer addition, subtraction or multiplication of the scalar program overflows in one of the lanes, and otherwise returns the same. simd_for_each(|v| *v = closure(v)) on a slice replaces every element by what the scalar program returns for it; if it panics in a debug build, exactly the elements of the vectors before the one with the first overflow are replaced and the rest of the slice is as it was, and likewise for the buffer of simd_map(closure).scalar_fill(&mut buf).", "quantifier": "all closures of the language, element types, vectors, slices, defaults, numbers of zipped slices, debug and release", "why_tests_cant": "no test of the crate runs on such a target, and whether an operator overflows depends on the values in every lane, the lanes of the default vector included", "anchors": ["src/arch/unknown/vecs.rs: impl_packed, impl_packed_type, impl_ops", "src/arch/unknown/intrin", "src/intrin", "src/iters.rs", "src/zip.rs", "src/into_iters.rs"]}
{"id": "C95", "title": "Kernels that compute with wider lanes on targets without SIMD support", "statement": "On a target that is not x86, a program that maps |v| { let (a, b) = v.upcast(); f(a).saturating_downcast(f(b)) } over a slice of 8-, 16- or 32-bit integers (or the same with several vectors taken from zipped slices or from the strides of one slice), f any closure of the language of C83 whose result is not u64, and collects the scalars returns for every element f of it computed in the wider type and saturated to the narrow one, in the order of the slice; so it does for u64 results of at most 2^31 - 1. In a debug build a call of the closure panics exactly when f overflows the wider type in one of the lanes. scalar_fill instead of scalar_collect leaves the same results at the start of the buffer and the rest of it as it was; if it panics in a debug build, the buffer holds the results of exactly the vectors before the one with the first overflow.", "quantifier": "all closures f, element types, slices, defaults, numbers of slices or strides, debug and release", "why_tests_cant": "no test of the crate runs on such a target, and x86 builds with AVX2 return the elements in another order (C92)", "anchors": ["benches/usage.rs: zip_simd", "src/arch/unknown/intrin/upcast.rs", "src/arch/unknown/intrin/downcast.rs", "src/arch/unknown/vecs.rs", "src/into_iters.rs: scalar_collect", "src/zip.rs", "src/stride.rs"]}
{"id": "C96", "title": "Reductions on targets without SIMD support", "statement": "On a target that is not x86, reducing a slice, a mapped slice or slices zipped together and mapped, with simd_reduce and then scalar_reduce and closures of the language of C83, returns what the scalar fold returns: for every operation that is associative and commutative with the start value as its unit, on the values that occur, provided that in a debug build no operator overflows on such values. Adding up non-negative integers whose total fits the type never overflows and returns the total, in debug builds as well. The minimum, the maximum, the bitwise and, or and exclusive or of a slice of integers come out right in every build.", "quantifier": "all closures of the language, element types, slices, numbers of zipped slices, start and default values, debug and release", "why_tests_cant": "whether an addition in a lane or of a partial result overflows depends on how the elements are distributed over the lanes; no test of the crate runs on such a target", "anchors": ["src/iters.rs: simd_reduce", "src/vecs.rs: scalar_reduce", "src/arch/unknown/vecs.rs: impl_packed, impl_ops", "src/arch/unknown/intrin", "src/zip.rs", "src/into_iters.rs"]}
{"id": "C97", "title": "Sums and extrema of floats on targets without SIMD support", "statement": "On a target that is not x86, adding up a slice of f32 or f64 with simd_reduce and then sum() returns the exact sum when no rounding is needed (the values are multiples of one power of two and their magnitudes add up to less than 2^24 or 2^53 times it); otherwise, while the magnitudes stay clear of overflow, a finite number whose error is at most that of n roundings, n the number of vectors plus the number of lanes; and NaN if an element is NaN. The minimum (maximum) taken with simd_reduce and scalar_reduce from the infinity skips NaNs: it is the infinity if the slice has no other elements, and otherwise one of them that none is below (above). In debug and in release builds.", "quantifier": "all slices of f32 and f64, NaNs, infinities, zeros and subnormals included, debug and release", "why_tests_cant": "the order of the additions depends on the length and the number of lanes; no test of the crate runs on such a target, and x86 builds treat NaN differently in the extremum (C90)", "anchors": ["src/iters.rs: simd_reduce", "src/vecs.rs: scalar_reduce", "src/intrin/sum.rs", "src/arch/unknown/intrin/sum.rs", "src/arch/unknown/intrin/cmp.rs", "src/arch/unknown/vecs.rs: impl_ops"]}
{"id": "C98", "title": "Kernels that compute in f64 on slices of f32 or i32", "statement": "A closure that widens vectors of f32 or i32 to f64 with upcast, computes in f64 and narrows both halves with saturating_downcast returns, in every build, lane by lane and in the order of the lanes, what the scalar program `f(x as f64) as f32` returns. Mapped over a slice, over any number of zipped slices or over the strides of a slice and collected, it yields exactly those scalars. No reordering (unlike integer kernels with AVX2, C92) occurs. In a debug build on a target that is not x86 the closure panics if an integer operation of the scalar program overflows in a lane. With IEEE arithmetic, products, sums, differences and square roots of f32 computed this way are the correctly rounded f32 results (rounding twice does no harm) for all operands including infinities, NaNs, zeros and overflow, and sums and differences of two i32 are the f32 nearest to the exact integer.", "quantifier": "all closures of operators on f64, all slices, lengths, strides and tails, all x86 feature sets and the portable back-end, all f32 and i32 values", "why_tests_cant": "upcast has a register version per feature level and saturating_downcast only a portable one; double rounding errors occur for rare operand pairs only", "anchors": ["src/arch/x86/intrin/upcast.rs: Upcast<f64x2>, Upcast<f64x4>", "src/arch/x86/intrin/downcast.rs: Downcast<f32x4>, Downcast<f32x8>", "src/arch/unknown/intrin/upcast.rs", "src/arch/unknown/intrin/downcast.rs", "src/iters.rs: simd_map, scalar_collect", "src/zip.rs", "src/stride.rs"]}
{"id": "C99", "title": "Kernels in three stages with f64 in the middle", "statement": "A closure that computes on vectors of 32-bit lanes, widens the results (f32 or i32) to f64 with upcast, computes in f64, narrows both halves to f32 with saturating_downcast and computes on the result - as the benchmark high_latency does - compiles in every build and returns in every lane what the scalar program `q(x(p(a, b, ..) as f64, ..) as f32)` returns for the scalars of that lane. Mapped over a slice, over any number of zipped slices or over the strides of a slice, it yields exactly those scalars with scalar_collect, and scalar_fill leaves them at the start of the buffer and the rest of the buffer as it was. On a target that is not x86 a debug build does the same provided that no integer operation of the scalar program overflows; if one overflows in a lane, the closure panics, and scalar_fill has by then written the results of the vectors before that one and nothing else. With IEEE arithmetic, the benchmark high_latency itself leaves in its buffer the five correctly rounded operations (times 1.2, widen, square root, times pi, narrow) of every element, for all elements, infinities and NaNs included, in every build.", "quantifier": "all closures of the language of C83 in each of the stages, any number of widened values, all slices, lengths, defaults, strides, buffers that are long enough, all x86 feature sets and the portable back-end, debug and release", "why_tests_cant": "the vector type and with it the number of lanes changes twice inside the closure, and which code widens and narrows depends on the target; benchmarks check no results", "anchors": ["benches/usage.rs: high_latency", "src/arch/x86/intrin/upcast.rs", "src/arch/x86/intrin/downcast.rs", "src/arch/unknown/intrin", "src/intrin", "src/iters.rs: simd_map, scalar_fill, scalar_collect", "src/zip.rs", "src/stride.rs"]}
{"id": "C100", "title": "Sums and other reductions in a wider type", "statement": "Reducing a slice of 8-, 16- or 32-bit integers with `simd_reduce(zero, |acc, v| { let (a, b) = v.upcast(); .. })`, where the accumulator is a vector of the type of twice the size and the closure folds a function of both widened halves into it with an associative and commutative operation, loses no element and counts none twice, whatever the length of the slice: folding the lanes of the accumulator gives the scalar fold over the slice in the wider type, provided that the function maps the default to the unit. In particular `acc + a + b` and `acc + a * a + b * b`, followed by sum(), give the sum and the sum of squares of the slice in the wider type in every x86 release build, so exactly if they fit there. Likewise `acc + a * b + p * q` on the widened halves (a, p) and (b, q) of the vectors of two zipped slices of one length gives their inner product in the wider type, if one of the defaults is zero. On targets that are not x86 all this holds in release builds, and for one slice also where nothing overflows; the sum and the inner product of elements that are not negative, and the sum of squares, never overflow and are exact if they fit the wider type, in debug builds as well, on every target. Where a lane does overflow, the closure panics in a debug build.", "quantifier": "all closures of the language of C83 that fold both halves, all functions and operations, all slices, lengths and defaults, all x86 feature sets and the portable back-end, debug and release", "why_tests_cant": "the accumulator has half as many lanes as the vectors of the slice; how vectors are widened depends on the target, and the last vector is filled up from the default, so whether every element is counted once depends on the length and on the width", "anchors": ["src/iters.rs: simd_reduce", "src/zip.rs: simd_reduce", "src/arch/x86/intrin/upcast.rs", "src/arch/unknown/intrin/upcast.rs", "src/arch/x86/intrin/sum.rs", "src/arch/unknown/intrin/sum.rs", "src/vecs.rs: scalar_reduce"]}
