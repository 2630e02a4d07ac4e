# Formal model of `faster` in Rocq (Coq 8.16.1)

## What is modelled

The model is a set of total, computable Gallina functions in `rocq/theories`.

* **Outcomes.** Every operation returns `outcome A := Ok a | Panic | UB | Fuel`.
  `Panic` is a Rust panic, `UB` is an out-of-bounds access or another violated
  `unsafe` precondition, `Fuel` is only returned by a fuelled loop whose fuel
  ran out.  Theorems of the shape `... = Ok r` therefore also say "no panic, no
  undefined behaviour, terminates".
* **Build mode.** A configuration carries `Debug` (overflow checks and
  `debug_assert!` on) or `Release` (usize arithmetic wraps modulo 2^64,
  `debug_assert!` compiled out, unchecked accesses out of range are `UB`).
* **Back-end.** The configuration also selects the portable `merge_partitioned`
  or the SSE4.1/AVX2 byte blend.
* **Data.** Scalars are an arbitrary type `A`; slices and vectors are `list A`;
  the vector type is a descriptor (WIDTH, SIZE).  Uninitialised memory in
  `scalar_collect` is `None` in a `list (option A)`.
* **Traits.** `SIMDArray`, `SIMDIterable`, `SIMDIterator`, `UnsafeIterator` are
  dictionaries (records of functions over an abstract state), so that blanket
  impls (`end`, `simd_reduce`, `scalar_collect`, ...) are modelled once and
  instantiated with `SIMDIter`, `PackedStride`, `SIMDMap`, `Zip`, `SIMDZipMap`,
  `StrideZip`, `SIMDAdapter`.
* **Closures.** `FnMut` closures are state-passing total functions.
* **Intrinsics.** Integer lanes are `Z`, vectors of lanes are lists, registers
  are little-endian byte lists.  The x86 instructions used by the optimized
  back-end are modelled from Intel's documented per-128-bit-lane semantics.
* **Floats.** A float is its bit pattern (`Floats.v`); arithmetic is IEEE-754
  round-to-nearest-even computed on the patterns with exact integers (`Arith.v`)
  and proved correctly rounded against `ArithSpec.v`.
* **Tables.** The macro invocations (vector types, masks, shuffles, gates, sums,
  casts, conversions) are transcribed by `tools/gen_*.py` into `*Tables.v`; every
  row cites the line it comes from.  The theorems quantify over all rows.

### Which file models what

| model file | source |
|---|---|
| `Iters.v` | `src/iters.rs`, `src/into_iters.rs` |
| `Stride.v`, `StrideZip.v`, `Zip.v` | `src/stride.rs`, `src/stride_zip.rs`, `src/zip.rs` |
| `Crash.v` | `scalar_fill`, `simd_for_each` of `src/iters.rs` again, with closures that may panic |
| `Loops.v` | the for loops over `unroll(k)` that `benches/usage.rs` writes, with explicit memory |
| `Portables.v` | the same closures on the portable back-end (targets that are not x86) |
| `WidePorts.v` | closures that widen, compute and narrow, on the portable back-end |
| `Doubles.v` | closures that widen f32 or i32 to f64, compute and narrow to f32, in every build |
| `Accums.v` | closures of `simd_reduce` that widen a vector and fold both halves into a wider accumulator |
| `ZipAccums.v` | the same closures over two zipped slices |
| `Stages.v` | closures in three stages with f64 in the middle (`benches/usage.rs` `high_latency`) |
| `Exprs.v` | closures over natural vectors: every call runs the definition the build contains for the operand's type |
| `Builds.v` | the `cfg(target_feature)` attributes of the operations: which body a build contains |
| `Vecs.v` | `src/vecs.rs`, `src/arch/x86/vecs.rs` |
| `Merge.v`, `Patterns.v`, `Tables.v` | `src/intrin/merge.rs`, `src/vec_patterns.rs`, `src/arch/*/vec_patterns.rs`, `src/arch/*/intrin/merge.rs` |
| `Shuffles.v` | `src/intrin/endian.rs`, `src/intrin/swizzle.rs` and their arch files |
| `Ops.v`, `OpTables.v` | `eq.rs`, `cmp.rs`, `saturating_add.rs`, `saturating_sub.rs`, `round.rs`, `sqrt.rs` of `src/intrin` and `src/arch/*/intrin`, `src/intrin/macros.rs` |
| `Hops.v` | `hadd.rs`, `hsub.rs`, `saturating_hadd.rs`, `saturating_hsub.rs` |
| `Trace.v` | `debug.rs` |
| `Ports.v`, `PortTables.v` | `abs.rs`, `upcast.rs`, `downcast.rs`, `destride.rs` |
| `Sums.v`, `SumTables.v` | `sum.rs`, `popcnt.rs` |
| `Estimates.v` | `recip.rs`, `rsqrt.rs` |
| `Demos.v` | the float pipelines of `examples/main.rs` |
| `Widens.v` | closures that widen, compute and narrow, as `zip_simd` of `benches/usage.rs` |
| `Gates.v`, `GateTables.v` | every `#[cfg(target_feature)]` of `src/arch/x86` |
| `Unknown.v`, `UnknownTables.v` | `src/arch/unknown/vecs.rs` |
| `Avail.v`, `TransTables.v` | which impls exist; `transmute.rs` |
| `*Spec.v`, `History.v`, `StrideHistory.v` | nothing: specification vocabulary of the theorems |
| `*Facts.v`, `*Proofs.v` | nothing: lemmas |
| `Suite.v` | the crate's own tests (`src/**` test modules, `tests/*.rs`), run on the model in three builds and four configurations: a check of the model, not a proof |
| `Props_*.v` | nothing: the theorems, each with its examples |

## Plan per property

| id | property | model and proof |
|---|---|---|
| C01 | Traversal covers every element exactly once, in order | SIMDIter over a slice in `Iters.v`; spec = chunks + tail in `Spec.v`; induction on the remaining length. |
| C02 | end() right-aligns the tail over the default vector | blanket `end`; case split on the two code paths; both merge back-ends. |
| C03 | end() is safe to call at any time | same model in Release with wrap; the claim is expected to be false: refutation witnesses (wrong vector, table over-read) plus the exact safe guard (remaining <= WIDTH). |
| C04 | next() is memory safe from every state | SIMDIter::next with wrapped addition; case analysis on overflow. |
| C05 | Mixed histories of next / scalar next / advance / pos queries | refinement of an op machine to the suffix machine; induction on the history. |
| C06 | simd_reduce / simd_do_each visit exactly the traversal | fuelled model of the while-let loops; generic over any iterator, then instantiated. |
| C07 | Width-independent reductions | algebra over the result of C06 with an abstract commutative monoid. |
| C08 | simd_map + scalar_collect is map | SIMDMap + scalar_collect with an uninitialised buffer; corollary of C09. |
| C09 | scalar_collect for arbitrary vector functions | generic `emits` interface; buffer invariant by induction over emitted vectors. |
| C10 | scalar_fill writes exactly the results and nothing else | same loop over the caller's buffer. |
| C11 | scalar_fill into a short buffer is memory safe | expected false in Release: refutation witness; Debug panics. |
| C12 | scalar_fill_all / scalar_collect_all include the whole tail vector | scalar_fill_all proved; scalar_collect_all expected false: refuted. |
| C13 | simd_for_each is an in-place map | loop invariant: processed prefix mapped, suffix untouched; tail overlap lemma. |
| C14 | simd_for_each on a partly consumed iterator | expected false: refuted with a witness. |
| C15 | Iterators are fused | state invariant pos >= len. |
| C16 | unroll(k) groups the vectors of the iterator | Unrolled::next loop; concatenation lemma. |
| C17 | len() reports the number of vectors next() will still return | exact for fresh iterators; refuted after consumption. |
| C18 | scalar_len / vector_len / positions of mapped iterators | refuted for SIMDMap/Zip (unit confusion); proved for slices. |
| C19 | Width-changing maps produce the right number of scalars | arithmetic of n*S/T on top of C09. |
| C20 | Map closures are called once per delivered vector, in order | closure call log threaded as closure state. |
| C21 | Stride streams yield every count-th element | PackedStride over any SIMDArray obeying array laws; spec = every count-th element. |
| C22 | Stride streams partition the data | interleaving lemma on C21; the loss when count does not divide len shown as well. |
| C23 | Stride loads stay in bounds | in-bounds part of C21; wrap-around refutation for advance in Release. |
| C24 | Random access on a stride stream | direct, with panic exactness. |
| C25 | stride_two/three/four/nine agree with stride(count) | equality of constructor results. |
| C26 | Nested strides multiply | array laws are preserved by PackedStride, compose. |
| C27 | Zipped iterators advance in lockstep | UnsafeIterator dictionaries closed under products, so every arity is covered. |
| C28 | zip + simd_map + scalar_collect is map2 | C27 + C09 + lane-wise closure. |
| C29 | zip rejects iterators of different length | refuted: equal vector counts but different lengths are accepted. |
| C30 | Zip honours the position of every iterator | refuted: other positions are ignored. |
| C31 | stride_zip de-interleaves pairs | proved for multiples of 2*WIDTH; refuted otherwise. |
| C32 | SIMDAdapter packs a scalar iterator | refuted. |
| C33 | Vector load/store round trip and frame | list lemmas on load/store models. |
| C34 | Lane access laws | list lemmas; debug/release product and coalesce. |
| C35 | Pattern constructors | byte-level mask table model; all (WIDTH,SIZE) pairs. |
| C36 | partition_mask never reads outside its table | refuted in Release; Debug panics. |
| C37 | merge_* select the documented lanes, on both back-ends | byte-level blendv vs lane-level selection. |
| C38 | eq_mask / ne_mask | lane-level compare model vs fallback. |
| C39 | min / max | integers and floats away from NaN and opposite zeros; NaN divergence shown as well. |
| C40 | Saturating arithmetic | clamp specification. |
| C41 | hadd / hsub layout | symbolic lanes; shuffle models computed on variables. |
| C42 | sum / sum_upcast | psadbw/phaddw models; i8 sum_upcast expected false. |
| C43 | count_ones / count_zeroes | nibble table lemma for all 256 bytes lifted to vectors. |
| C44 | Byte-order conversions | byte shuffles on symbolic bytes. |
| C45 | Transmutes round-trip | little-endian encode/decode lemmas. |
| C46 | upcast preserves values and order | pmovsx/pmovzx models. |
| C47 | saturating_downcast saturates and keeps order | packs/packus models; several refutations expected. |
| C48 | destride de-interleaves | pshufb/vpermq models; AVX2 u8x32 expected false. |
| C49 | abs | pabs model; float via bit representation. |
| C50 | round / ceil / floor / trunc agree across back-ends | exact dyadic model of floats; round-half refutation. |
| C51 | end() after some scalars were consumed from a short slice | refuted for every short slice and interior position. |
| C52 | Groups returned by unroll stay valid | unrolled scratch space modelled; refuted by a witness, fresh part proved. |
| C53 | flip swaps neighbouring lanes | shuffle instruction models vs neighbour swap specification. |
| C54 | merge_partitioned at off = WIDTH | refuted for all vectors. |
| C55 | Optimised code only uses instructions its feature gate provides | table of instruction requirements; refuted, with the exact exceptions. |
| C56 | sqrt is lane-wise | lane-wise; square root on bit patterns, proved correctly rounded. |
| C57 | Every feature combination defines every operation exactly once | cfg attributes transcribed; any predicate on feature names. |
| C58 | Natural vector types agree on the register size | impl_packed! lines transcribed; any consistent feature set. |
| C59 | Safe loads and stores of portable vectors stay inside the slice | list model of the copy with an explicit bounds check; refuted for all failing offsets, positive theorems for the rest. |
| C60 | Operators of portable vectors are lane-wise | loops of the macros over the transcribed tables; specification per operator trait. |
| C61 | Casts of portable vectors convert each lane | scalar casts on bit patterns vs nearest / truncated values. |
| C62 | From between portable integer vectors preserves the bytes | byte-level reinterpretation; tables checked for completeness. |
| C63 | Equality of portable vectors | fold over the zipped lanes vs lane equality. |
| C64 | Construction and lane access of portable vectors | list model. |
| C65 | Natural vectors support every meaningful operation | transcribed tables vs. a table of meaningful operations, for any consistent feature set; refuted for the listed gaps. |
| C66 | Both back-ends implement the same operations of 128-bit vectors | transcribed tables of both back-ends compared; refuted for the listed methods. |
| C67 | recip estimates the reciprocal | IEEE division on bit patterns for the portable version, the instruction as a parameter with Intel's bound as premise. |
| C68 | rsqrt estimates the reciprocal square root | error analysis of sqrt().recip() on bit patterns; the instruction as a parameter with Intel's bound as premise. |
| C69 | Float sums do not depend on the instruction set | both orders of addition over IEEE addition on bit patterns; refuted in general, exact sums proved equal. |
| C70 | Debug builds turn every misuse into a panic | inductive family of all iterators that can be built (BuiltSpec.v), safety invariant by mutual induction on it, then induction on histories and fuel. |
| C71 | scalar_collect collects what is left | the emitted stream of a chain of maps from any position, plugged into the collect loop with its capacity; refuted for whole-vector remainders. |
| C72 | Whole programs compute what their scalar versions compute | composition of the traversal of any tuple of iterators (PipeSpec.v: tuples of any size, lane-wise closures) with the collect loop, and with the theorems on abs and sum. |
| C73 | A closure with state is called once per vector | the collect loop over the SIMDMap model with a state-passing closure; invariant: state after j calls is the fold of the first j vectors. |
| C74 | The exact width dependence of reductions with constants | fold over the visited vectors with a total kept modulo 2^bits, composed with the theorems on sum for every row of both tables. |
| C75 | Collecting over stride_zip gives one result per pair of neighbours | exact result for every length from C31_outcomes_partial composed with the collect loop; refuted for every length that is not a multiple of 2*WIDTH. |
| C76 | What is in memory after a panic | Crash.v repeats the three consumers with closures that may panic, returning the memory at the end of the call next to the outcome; proved equal to the main model for closures that return; induction on the calls before the panic. |
| C77 | Storing vectors in a for loop | induction on the vectors returned by next(), with the checked store of vecs.rs. |
| C78 | Operations do not depend on the target features | Builds.v selects a definition by the enabled features from the tables of optimised and portable definitions; a computed check that the two attributes of every method are complementary gives exactly one definition, and the result follows from the theorems about each body. |
| C79 | Chained maps | LawSpec.v gives the composed closure and the relation between the two iterators' states; a simulation between the iterators is lifted through every consumer. The tail count is scaled twice, which is the same as once except when the middle lanes are larger than both ends. |
| C80 | Storing unrolled groups in a for loop | Loops.v models the loop with explicit memory; the groups are those of C16, and storing them is computed by induction on the groups. |
| C81 | The unrolled benchmarks compute what the plain ones do | The same model with the index the benchmarks use, i + idx: a closed form of what is left in memory, which is not the intended one. |
| C82 | Kernels over zipped slices | The zip theorem of C72 is strengthened to say which vectors the mapped zip hands out, padding included; fill and reduce follow from their general lemmas, sum from C42. |
| C83 | A program returns the same on every target | A language of closures with types (ExprSpec.v), whose meaning is a scalar function; a model runs the same closure on vectors, looking up for every call the definition the build contains (Exprs.v). Induction over the closure with C78 for each call shows that every lane is the meaning; the whole programs then follow from C72. |
| C84 | Laws between operations | from the theorems of C78 about each operation in every build, with C35 for the pattern vectors; the law of hadd and sum by induction on pairs of lanes, modulo the lane type. |
| C85 | upcast followed by saturating_downcast gives the vector back | upcast from C78; saturating_downcast by cases on the definition present in the build, from the theorems of C47; the two failing families are computed for all vectors. |
| C86 | Sums of float slices in every build | by one induction over the additions, for any relation between a float, the exact sum it stands for, the sum of magnitudes and the number of roundings: first along the vectors of the reduction (C06), then along the lanes, one after the other or by halves (C69, C78). Instances: exact values, the error of n roundings (from a half-unit bound for one addition, proved from the correct rounding of C69) and NaN. |
| C87 | Trace messages appear once per thread | a transition system with one guard per thread and a point between the write to the file and the output (Trace.v); invariant over all schedules relating the guard, the lines of the thread and the messages it ran. |
| C88 | A reduction whose operation is associative and commutative returns the sequential fold in every build | a monoid on the numbers of a type only (laws restricted to a predicate), an induction over the vectors the reduction passes to its closure, the padding mapped to units, on top of the closures of C83, the reductions of C06/C79 and scalar_reduce of C34; minimum, maximum, saturating total, product and bitwise folds as instances. |
| C89 | Inner products of float slices in every build | the zipped reduction is the reduction over the slice of products (chunks of a zip and of the product slice agree, tails included), so C86 applies to the rounded products; each product is within 1 part in 2^24 or 2^53, or half a unit, of the exact one (a nearest-float argument with denominators); the two bounds are multiplied out in integers. |
| C90 | Minimum and maximum of float slices in every build | both forms of min and max return one of two non-NaN arguments and none is beyond it (no equality of builds is needed); the fold over any list of vectors keeps every element below some lane and only ever holds elements or the infinity; the scalar fold does the same; a non-NaN float beyond the infinity is the infinity itself. |
| C91 | The float pipelines of the example return the same in every build | the closure is run in the language of Exprs.v up to rsqrt and after it; from the bounds of sqrt and the error bound of RSQRTPS (or the rounded quotient) the estimate lies strictly between 0 and 1, so ceil gives 1.0 and the rest is computed; the bound of 1.0015 is where the square root times (1 + 1.5 * 2^-12) still stays below 1. For the sums, reducing with a fused closure is reducing the mapped slice (induction over the vectors), then the exact-sum theorem of C86. |
| C92 | Kernels that compute with wider lanes | the exact result of saturating_downcast in a build (table check of the rows and features, C47) is put behind upcast (C46) and the closure theorem C83_closure: lane k of the result comes from lane k, or from the exchanged quarter with AVX2, narrowed as that build does. The program theorems follow from C72 (lane by lane closures) and C09 (arbitrary closures). |
| C93 | Programs that write to memory leave the same in it on every target | C83_closure says what one call of the closure returns; the store of simd_for_each is C13_for_each (arbitrary closures), that of scalar_fill is the completeness of the mapped traversal (C10) and, for zipped slices, C82_zip_fill. The remaining step is that a closure equal to a map on every vector it is called with gives a map on the concatenation, with the tail right-aligned. |
| C94 | Programs on targets without SIMD support | Portables.v runs every operator and method call with the definition of src/arch/unknown for the natural (128-bit) vector of its operands. By induction on the closure: either all sub-closures returned, then the lane theorems of the portable back-end (C38-C40, C44, C49, C56, C60) give the lane of the result, or one panicked; the loop of an operator returns or panics at a lane where the operator overflows. The programs follow from C72; agreement with x86 from C83; the memory after a panic from C76. |
| C95 | Kernels that compute with wider lanes on targets without SIMD support | WidePorts.v composes the portable upcast, the closure of C94 and the portable saturating_downcast. The lanes of the two halves are the lanes of the arguments (C46), the closure works on them as C94 says, and the narrowing clamps every lane in order (C47); the programs follow from C72. scalar_fill is `fill_lanes` and, with overflows, the crash model of C76. |
| C96 | Reductions on targets without SIMD support | the vector closures are lane by lane on the values that occur (C94_closure), so the generic fold over right-aligned vectors of C88 applies. For the sum: no partial sum exceeds the total of the accumulator and the remaining vectors, which is the total of the slice (induction over the vectors). |
| C97 | Sums and extrema of floats on targets without SIMD support | the sum is the addition of vectors lane by lane (C94_closure) followed by a left fold of the lanes, so the depth-indexed error relation of C86 applies with depth vectors + lanes. For the extremum, invariant of the fold: the accumulator holds numbers that are the infinity or elements, and every number seen so far is below some lane. |
| C98 | Kernels that compute in f64 on slices of f32 or i32 | the widened halves are `map as_f64` of the first and the second half of every argument, in every build (exact form of C46); C83 or C94 give the lanes of the closure, C47 the narrowing, C72 the programs; for products the exact value has at most 48 significant bits and an exponent in range, so it is a float of 53 bits (`representable`) and the only rounding is the narrowing. Sums and roots are rounded twice: a number half way between two f32 is never within half a unit of f64 of a sum or a root without being equal to it (`not_near`, `root_not_near`), so the second rounding picks the right neighbour. |
| C99 | Kernels in three stages with f64 in the middle | the first stage gives the columns of the intermediate vectors (C83 or C94, induction over the list of closures), the second is C98 on them, the third C83 or C94 again; its operands are lanes of f32 because the meaning of a closure is a lane of its type (`meaning_lane`). C72 gives the programs that collect, a general lemma on scalar_fill (`fill_lanes`) those that write to a buffer. |
| C100 | Sums and other reductions in a wider type | the two results of upcast are the halves of the vector (C46, C78), so one call maps the accumulator lane by lane (C83 or C94); a vector of the slice then contributes the lane-wise fold of its halves, and the lemmas on commutative monoids of C88 apply (`accumulated`). The exact totals in debug builds follow by induction over the vectors: partial sums of non-negative numbers stay below the total (`total_accumulated`). Two zipped slices are visited as the slice of their products would be (C89, `zip_fold`). |

## Trusted base

* Coq 8.16.1's kernel (and `vm_compute` for the closed computations).
* **Axioms.** `Print Assumptions` follows every theorem in the `Props_*.v` files
  and answers "Closed under the global context" for each of them: no axiom of
  ours, none of the standard library.  (A checker that lists the axioms of the
  *loaded* libraries also reports the three of `Coq.ssr.ssrunder`, which `Lia`'s
  dependencies load; no theorem uses them.)
* **The reading of the Rust source.** Each definition cites file and lines.  The
  scripts `tools/gen_*.py` copy macro invocations; they are not verified, their
  output is meant to be compared with the source line by line.  `Suite.v` runs the
  crate's own tests on the model; all of them pass.
* **Rust and packed_simd.** `from_slice_unaligned` asserts the slice has at least
  WIDTH elements, `from_slice_unaligned_unchecked` reads WIDTH elements,
  `extract`/`replace` assert the index, packed integer operators wrap, slicing
  `&data[off..]` panics iff `off > len`, an allocation larger than isize::MAX
  bytes panics, slices occupy at most isize::MAX bytes, `as` casts from floats
  saturate (Rust 1.45 and later), scalar float operations are IEEE-754.
* **Instructions.** `X86.v` and `X86Reg.v` are Intel's documentation of the
  modelled instructions; `GateSpec.v` says which feature each of them needs.  For
  `rcpps`/`rsqrtps` only Intel's error bound is assumed, as a premise of the
  theorems that need it.
* **The specifications.** `*Spec.v`, `History.v`, and for each theorem its own
  statement.

## Properties that are false of the code

The theorems named `..._refuted` prove, for all inputs of the stated shape, that the
code does not do what the property says; the `..._partial` theorems say where it does.

* **C03.** Refuted for every position with more than WIDTH elements left, with the exact outcome in every build: Debug and portable merges panic, the byte blend returns a wrong vector (left <= 64/SIZE), reads outside the mask table (64/SIZE + left <= 128) or panics. Proved part: Debug builds never return a wrong answer.
* **C11.** Refuted in Release for every buffer that holds at least one vector but not the result (writes outside the buffer); the same for scalar_fill_all. Proved part: Debug builds, and buffers shorter than one vector in every build, panic.
* **C12.** scalar_fill_all proved under a long enough buffer; scalar_collect_all refuted for every mapped iterator whose length is not too small (it hands out a slice of len() scalars for len() vectors).
* **C14.** simd_for_each on a partly consumed iterator, characterised for every start position: right under the guard of the _partial theorem, wrong (the two _refuted theorems, with the outcome) in every other case.
* **C17.** Proved for fresh slice iterators. Refuted with the exact count: after consumption, and for strides, where len() is one too large exactly when the stream's last vector ends at the end of the data.
* **C18.** Refuted for mapped and zipped iterators (units confused); proved for slice iterators.
* **C23.** Refuted for histories whose advance() wraps the position. Proved: every history of calls that stays in range behaves like a sequential read of the stream, in both builds (C23_history_partial), and the complete release-mode outcome of next() from every state, wrapped or not (C23_next_release).
* **C29.** Refuted: equal vector counts with different scalar lengths or widths are accepted. Proved parts: different vector counts panic; C29_outcomes_partial gives the exact outcome of draining two slices of equal vector counts and any lengths, in both builds.
* **C30.** Refuted: only the first position is honoured. Proved parts: equal positions, and what is handed out for any two positions.
* **C31.** Proved for multiples of 2*WIDTH; the count returned by end() refuted otherwise. C31_outcomes_partial gives everything that is handed out, for every length.
* **C32.** Refuted for every length: at or above WIDTH the loop stops after half the vectors and loses the rest or overruns the buffer, below WIDTH nothing is produced or the tail is wrong. Proved part: the first vector.
* **C36.** Refuted in Release for every SIZE > 1 (offset arithmetic wraps and reads past the table). Proved part: Debug, SIZE = 1, or off <= 64/SIZE.
* **C42.** Integer sums: the portable sum is the exact total reduced to the lane type (release) and panics in debug exactly when a running partial sum leaves the type; sum_upcast is the exact total unless the 64-bit accumulator overflows. Optimised forms agree with the portable ones except: refuted for i16x16 and i32x8 in debug (two scalar additions of lane 0 and the half may panic although no running sum overflows) and for sum_upcast on signed bytes (the SSE/AVX2 form returns the sum of the bytes modulo 256). Float sums agree on every set of numbers where addition is associative; float sum_upcast adds truncated lanes.
* **C47.** Refuted three times, each for all inputs with the stated lane: the portable u64 code saturates against a signed bound, the SSE unsigned packs read lanes as signed, the AVX2 packs interleave the 128-bit halves. Proved parts: every other portable type, u64 below the bound, the SSE packs on lanes whose signed reading is the value. C47_downcast_u64_lanes and C47_downcast_instruction give the exact result of the faulty versions for all vectors.
* **C48.** Portable destride_two/destride_four for every type and the 128-bit optimised version proved; the 256-bit optimised second output refuted for all vectors with a[1] <> b[0]. C48_destride_two_256 gives both outputs for all vectors.
* **C50.** ceil/floor/trunc: proved in full incl. signed zero, infinities, NaN. round: both implementations are nearest and agree off ties; on ties the portable one goes away from zero and the instruction to even (both proved), so they differ (refuted for every half-way number above an even integer).
* **C51.** Refuted: on a slice no longer than a vector, end() after some scalars were consumed panics (Debug) or writes outside the vector (Release), for every such slice and position.
* **C52.** Refuted for every iterator and every pair of successive groups: the first group then reads as the second. Proved part: the group is right until the next call.
* **C54.** Refuted for every blend type and all vectors: the portable code panics where the blend returns self.
* **C55.** Refuted for min/max of u32x8 and i32x8 (gated by avx, AVX2 instructions) and the rounding functions of f64x4 (gated by sse4.1, AVX instructions), on every machine with the one feature and not the other. Proved part: every other method of the x86 back-end.
* **C59.** Refuted: load and store check only that the slice can hold a vector, not that it can at the offset; every slice that is long enough with an offset in its last WIDTH-1 positions or at its end gives an out-of-bounds access. Proved part: all other slices and offsets, and load_unaligned/store_unaligned everywhere.
* **C65.** refuted: min/max of 64-bit integers, saturating add/sub of 32/64-bit integers, recip/rsqrt of f64 and destride of floats and 64-bit integers exist in no build; all other meaningful operations exist in every build.
* **C66.** refuted: count_ones exists only on x86; saturating_add of 32/64-bit integers and rsqrt of f64x2 only in the portable back-end; all other operations agree.
* **C69.** Refuted for every type: all lanes -0.0 give +0.0 or -0.0, and for four or more lanes 2^24, 0, 1, 1 gives different numbers. Proved: the order of the additions of every version (any addition), and that both are exact, hence equal, when the lanes are multiples of a power of two and their magnitudes add up to less than 2^24 (2^53) of it.
* **C71.** Refuted, with the exact result: when at least one whole vector was consumed and a whole number of vectors is left, the vector returned is too long by the consumed vectors and the extra cells are uninitialised. Proved part: all other positions.
* **C75.** Refuted for every length that is not a multiple of 2*WIDTH (for WIDTH = 2 and three left-over scalars only the contents differ); C75_collect_partial gives the exact result for every length.
* **C79.** Refuted when the middle lanes are larger than those at both ends (for instance be_u16s followed by be_u8s on bytes): the count of unfilled lanes is rounded down in the middle type, and collecting inserts default lanes before the tail. Proved in all other cases, and for every iterator, not only slices.
* **C81.** Refuted: with the index i + idx group number i overwrites all but the first vector of group i-1. Of n*k vectors only n+k-1 blocks of out are written. An error of the benchmarks, not of the library.
* **C85.** Refuted twice, each for all inputs: with AVX2 the round trip of a 256-bit vector of 8- or 16-bit lanes exchanges its second and third quarter; a u32 lane above 2^31 - 1 in the upper half comes back as 2^31 - 1 in every build. Proved for everything else. C85_roundtrip_u32 gives the exact result for all u32 vectors in every build.
* **C92.** Refuted: with AVX2 the second and third quarter of vectors of 8- or 16-bit lanes change places (C92_map_avx2_refuted, exact result); with SSE2 or SSE4.1 unsigned 16- or 32-bit results of at least half the range become 0 (C92_unsigned_refuted). Proved: C92_vector gives the exact lane in every build; the program theorems hold in all builds that keep the order, with narrowed = saturation except for these unsigned results; u64 results are assumed to be at most 2^31 - 1.

## Not modelled

* The places where the trace macros of `src/debug.rs` are called (their effect is C87),
  `src/prelude.rs` (re-exports),
  `benches` and `examples`, except the two loops of `benches/usage.rs` in
  `Loops.v` (C80, C81), the float pipelines of `examples/main.rs` in `Demos.v` (C91),
  the closure of `zip_simd` in `Widens.v` (C92) and
  the programs restated beside theorems (C72, C82, C83).
* `src/intrin/addsub.rs` and `src/intrin/cast.rs`: traits without any impl that is
  compiled (the impls in `src/arch/x86/intrin` are commented out or not included by
  a `mod` line).  `swizzle.rs` is not included by a `mod` line either; its text is
  modelled all the same (C53).
* The portable back-end calls `from_slice_unaligned` and `write_to_slice_unaligned`
  in `impl_packed!`, which its vector types do not have, so that back-end does not
  compile at this commit.  Its functions are modelled as written.
* Builds without the feature `std`: `src/debug.rs` uses `std` unconditionally, so they do
  not compile at this commit.
* The `packed_simd` and `vektor` crates themselves, code generation, alignment,
  aliasing and lifetimes (except where noted), divergence of user closures and (other
  than in C76) their panics, allocation failure below isize::MAX, drop of uninitialised cells.
