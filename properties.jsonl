{"id": "C01", "title": "vector behaves as a sequence for every operation history", "statement": "For every sequence of push_back, pop_back, erase(begin()+i), clear, assign, resize, operator[] write, copy-construction, copy-assignment and swap calls made within their preconditions, the observable contents of a nanostl::vector (size(), operator[], at, front/back, begin..end) equal those of the mathematical list obtained by the same edits.", "quantifier": "all element types (opaque values), all finite operation histories, all sizes and capacities", "why_tests_cant": "growth, stale storage and erase-shifting interact over arbitrarily long histories; a test only samples some interleavings and sizes", "anchors": ["include/nanovector.h: vector::resize, push_back, pop_back, erase, assign, clear, swap, operator=, at, operator[]"]}
{"id": "C02", "title": "vector memory discipline: no leak, double free, use-after-free or out-of-bounds access", "statement": "In every history of vector operations made within their preconditions, each array obtained from the allocator is released exactly once, no released array is touched, no index outside the allocated array is read or written, and after the destructor runs no array owned by the vector stays allocated.", "quantifier": "all operation histories over any number of vectors sharing one heap", "why_tests_cant": "needs every reachable (size, capacity, owner) configuration, including those after swaps and self-assignment; sanitizers only see executed paths", "anchors": ["include/nanovector.h: vector::~vector, resize, swap, operator=, assign", "include/nanoallocator.h: allocator::allocate, deallocate"]}
{"id": "C03", "title": "push_back of an element of the same vector", "statement": "v.push_back(v[i]) appends a copy of the value v[i] had before the call, for every vector and every valid i (guaranteed by std::vector, which this library mirrors).", "quantifier": "all vectors, all capacities, all valid i", "why_tests_cant": "only fails at the instant size()==capacity(), and then through reading freed memory which a test usually observes as the right value", "anchors": ["include/nanovector.h: vector::push_back, resize"]}
{"id": "C04", "title": "vector::erase removes exactly one element and returns its successor", "statement": "erase(begin()+i) for i < size() removes element i, keeps all others in order, shrinks size by one, keeps capacity, and returns an iterator to the element that followed the erased one.", "quantifier": "all vectors and all valid positions", "why_tests_cant": "the returned iterator is only distinguishable from the right one at non-final positions, over all lengths", "anchors": ["include/nanovector.h: vector::erase"]}
{"id": "C05", "title": "vector::resize sets the size and preserves the common prefix", "statement": "After resize(n), size()==n and the first min(n, old size) elements are unchanged, for every n including 0.", "quantifier": "all vectors, all n representable", "why_tests_cant": "boundary n=0 and the two growth regimes (n above or below twice the capacity) must hold for every capacity", "anchors": ["include/nanovector.h: vector::resize, recommended_size"]}
{"id": "C06", "title": "vector growth is amortised constant and capacity is monotone", "statement": "n successive push_back calls on an empty vector perform O(log n) allocations and fewer than 2n element moves in total; capacity() never decreases and is always at least size().", "quantifier": "all n, all histories", "why_tests_cant": "an asymptotic bound over every n cannot be established by finitely many runs", "anchors": ["include/nanovector.h: vector::resize, recommended_size, push_back, capacity"]}
{"id": "C07", "title": "vector copies are deep and independent", "statement": "After copy-construction or assignment, source and destination hold equal contents in distinct storage, and any later history on one leaves the other unchanged; self-assignment changes nothing.", "quantifier": "all pairs of vectors and all later histories", "why_tests_cant": "independence is a statement about every later history of both objects", "anchors": ["include/nanovector.h: vector(const vector&), operator=, assign"]}
{"id": "C08", "title": "string is a NUL-terminated byte sequence", "statement": "Every string built by the default, C-string and copy constructors and by +, += (from a different string), clear, assignment keeps the invariant that c_str() is the content followed by exactly one terminating NUL, size()==length()==number of content bytes, and content refines the list spec of the same operations.", "quantifier": "all strings without embedded NUL and all histories of the listed operations", "why_tests_cant": "the terminator bookkeeping (pop NUL, append with NUL) must hold for every length and history", "anchors": ["include/nanostring.h: basic_string constructors, size, c_str, operator+=, operator+, clear, operator="]}
{"id": "C09", "title": "concatenation laws", "statement": "For all strings, (a+b)+c == a+(b+c), ''+a == a == a+'', size(a+b)==size(a)+size(b), and a+b leaves a and b unchanged; operator+= agrees with operator+.", "quantifier": "all triples of well-formed strings", "why_tests_cant": "universally quantified over unbounded strings", "anchors": ["include/nanostring.h: operator+, operator+="]}
{"id": "C10", "title": "string comparison is the unsigned-byte lexicographic total order", "statement": "For NUL-free strings, compare() returns a negative, zero or positive value exactly as the contents compare lexicographically as unsigned bytes; ==, !=, <, > are the corresponding relations and form a strict total order.", "quantifier": "all pairs/triples of well-formed strings", "why_tests_cant": "order laws (transitivity, trichotomy) over unbounded strings and all byte values above 127", "anchors": ["include/nanostring.h: compare, compare_, operator==, operator!=, operator<, operator>"]}
{"id": "C11", "title": "self-append and emptiness test", "statement": "s += s yields the doubled content for every s; empty() is true exactly when size()==0.", "quantifier": "all strings", "why_tests_cant": "self-append depends on spare capacity, which tests rarely control; empty() is wrong only for the empty string", "anchors": ["include/nanostring.h: operator+=, empty"]}
{"id": "C12", "title": "to_string(int) prints the decimal representation of every int", "statement": "For every 32-bit int, to_string returns its canonical decimal text (optional '-', no leading zeros) and stays within its buffer; distinct ints give distinct text and the text reads back to the int.", "quantifier": "all 2^32 values of int", "why_tests_cant": "exhaustive run is possible in principle but not of memory safety; boundary values near INT_MIN overflow an 11-byte buffer silently", "anchors": ["include/nanostring.h: to_string(int)"]}
{"id": "C13", "title": "to_string(long long) prints the decimal representation of every 64-bit integer", "statement": "For every int64_t, to_string returns its canonical decimal text within its buffer.", "quantifier": "all 2^64 values", "why_tests_cant": "domain is too large to enumerate", "anchors": ["include/nanostring.h: to_string(int64_t)"]}
{"id": "C14", "title": "map lookup returns the first inserted / last assigned value", "statement": "After any history of insert(pair) and m[k]=v, find/operator[] of a key returns the value of the first insert unless later overwritten through operator[]; insert reports inserted==false exactly when the key was present and then changes nothing; empty() iff nothing was inserted; other keys are unaffected.", "quantifier": "all totally ordered key types, all histories, all internal priorities", "why_tests_cant": "depends on the shape of a randomised tree over arbitrary histories", "anchors": ["include/nanomap.h: insert, operator[], find, __insert, __find, __rotate, empty"]}
{"id": "C15", "title": "map iteration visits every key once in ascending order", "statement": "Iterating from begin() with ++ until end() visits all keys exactly once in strictly ascending order.", "quantifier": "all maps reachable by insertions", "why_tests_cant": "depends on which key happens to be at the root of a randomised tree", "anchors": ["include/nanomap.h: begin, iterator::operator++, upper_bound, __upper_bound"]}
{"id": "C16", "title": "map keeps the search-tree and heap-order invariants and owns its nodes", "statement": "In every reachable map the keys are in search order, priorities are in heap order, each allocated node is reachable exactly once, and destruction frees each node exactly once; observable results do not depend on the priority stream.", "quantifier": "all insertion histories and all priority streams", "why_tests_cant": "rotation bugs only show on particular priority/key interleavings", "anchors": ["include/nanomap.h: __insert, __rotate, __delete, ~map, priority_rand"]}
{"id": "C17", "title": "min, max, max_element, fill obey their order-theoretic contracts", "statement": "min/max return one of the arguments, the lower/upper bound, preferring the first on ties; max_element returns the first position of a maximal element (last for an empty range); fill writes exactly the range and nothing else.", "quantifier": "all strict weak orders, all ranges", "why_tests_cant": "universally quantified over orders and ranges", "anchors": ["include/nanoalgorithm.h: min, max, max_element, fill"]}
{"id": "C18", "title": "memcpy copies exactly n bytes", "statement": "For non-overlapping regions memcpy copies the n source bytes, changes nothing else and returns dest; with overlap it is still correct when dest precedes src.", "quantifier": "all memories, addresses and n", "why_tests_cant": "all overlaps and sizes", "anchors": ["include/nanocstring.h: memcpy"]}
{"id": "C19", "title": "ratio is always in lowest terms", "statement": "ratio<N,D> for D≠0 and |N|,|D| representable has den>0, gcd(num,den)=1 and num/den = N/D; normalising twice changes nothing; lcm is the least common multiple for positive arguments.", "quantifier": "all N, D in intmax_t except the minimum", "why_tests_cant": "compile-time values: each instantiation is a separate test", "anchors": ["include/nanoratio.h: ratio, nanogcd, nanolcm, nanoabs, nanosign"]}
{"id": "C20", "title": "siphash computes SipHash-2-4", "statement": "For every key, message and output length 8 or 16 the hash routine returns the SipHash-2-4 digest of the published specification, reads exactly the message and key bytes and writes exactly outlen bytes.", "quantifier": "all messages of any length, all 128-bit keys", "why_tests_cant": "test vectors cover one key and 64 lengths", "anchors": ["src/hash.cc: siphash, SIPROUND, U8TO64_LE, ROTL"]}
{"id": "C21", "title": "hash functors respect equality and are injective where claimed", "statement": "Equal keys hash equally for every supported type (in particular +0.0 and -0.0), and the integer/bool/char hashes are injective (identity up to sign extension); hash<float>/<double> are injective on values other than zeros.", "quantifier": "all values of each type", "why_tests_cant": "injectivity over 2^64 values", "anchors": ["include/nanofunctional.h: hash<...>, __scalar_hash"]}
{"id": "C22", "title": "unique_ptr deletes each owned object exactly once", "statement": "For every program of construct/move/assign/reset/release/swap/destroy over any set of unique_ptrs, every object handed to a unique_ptr is deleted exactly once unless released, never while still owned by another, and get() is null after a move-from or release.", "quantifier": "all histories over any number of unique_ptrs", "why_tests_cant": "needs every aliasing/self-move pattern over unbounded histories", "anchors": ["include/nanomemory.h: unique_ptr, default_delete"]}
{"id": "C23", "title": "stringstream accumulates exactly what was written since the last clear", "statement": "str() equals the concatenation in order of all strings written since the last clear or move-from; move assignment transfers the content and empties the source; ostream's << of integers appends their to_string text and flush prints then empties.", "quantifier": "all write/clear/move histories", "why_tests_cant": "unbounded histories", "anchors": ["include/nanosstream.h: stringstream", "include/nanoiostream.h: basic_ostream::operator<<, flush"]}
{"id": "C24", "title": "floating-point classification is a partition", "statement": "For every bit pattern of float and double, exactly one of nan, infinite, zero, subnormal, normal holds, and isnan/isinf/isfinite/isnormal report it as IEEE-754 defines.", "quantifier": "all 2^32 and 2^64 bit patterns", "why_tests_cant": "2^64 patterns cannot be enumerated", "anchors": ["include/nanomath.h: isfinite, isinf, isnan, isnormal, __is_zero, __is_subnormal", "include/nanocommon.h: IEEE754Float, IEEE754Double"]}
{"id": "C25", "title": "copysign, fabs, fmin, fmax and clamp contracts", "statement": "copysign(x,y) has the magnitude bits of x and the sign of y; fabs clears the sign; fmin/fmax ignore a NaN argument and return the smaller/larger; clamp(a,lo,hi) lies in [lo,hi] for lo<=hi.", "quantifier": "all bit patterns", "why_tests_cant": "signed-zero and NaN cases over 2^128 argument pairs", "anchors": ["include/nanomath.h: copysign, fabs, fmin, fmax, clamp"]}
{"id": "C26", "title": "rounding and root special values", "statement": "ceil/floor return the least integer >= x / greatest integer <= x for every finite float, and sqrt maps +-0 to itself, +inf to +inf and negative numbers to NaN.", "quantifier": "all floats", "why_tests_cant": "failures are confined to tiny, huge or infinite arguments", "anchors": ["include/nanomath.h: ceil, floor, sqrt"]}
{"id": "C27", "title": "to_string(float) is the shortest round-trip decimal", "statement": "For every finite float the printed decimal lies in the float's rounding interval (so correctly rounded reading returns the same float), no shorter decimal does, and among the shortest it is the closest; it has at most 9 digits.", "quantifier": "all 2^32 float bit patterns", "why_tests_cant": "shortness and closeness quantify over all competing decimals", "anchors": ["include/__nanostrutil.h: f2d, to_chars, f2s_buffered, mulShift32, mulPow5InvDivPow2, mulPow5divPow2", "include/nanostring.h: to_string(float)"]}
{"id": "C28", "title": "to_string(double) is the shortest round-trip decimal", "statement": "For every finite double the printed decimal lies in the double's rounding interval, no shorter decimal does, and among the shortest it is the closest; it has at most 17 digits.", "quantifier": "all 2^64 double bit patterns", "why_tests_cant": "2^64 inputs times all competing decimals", "anchors": ["include/__nanostrutil.h: d2d, d2d_small_int, to_chars, d2s_buffered, mulShiftAll64", "include/ryu/d2s_full_table.h"]}
{"id": "C29", "title": "float formatting never overruns its buffer", "statement": "to_string(float) writes at most 16 bytes and to_string(double) at most 25 bytes including the terminator, and the produced text is exactly the returned string.", "quantifier": "all bit patterns", "why_tests_cant": "length depends on digits and exponent of every value", "anchors": ["include/nanostring.h: to_string(float), to_string(double)", "include/__nanostrutil.h: to_chars, copy_special_str, f2s_buffered_n, d2s_buffered_n"]}
{"id": "C30", "title": "decimal-to-double parser is correctly rounded", "statement": "For every text -?digits[.digits][e[-+]?digits] of at most 17 significant digits, with at most 4 significant exponent digits, s2d_n returns the double nearest to the decimal value, ties to even, overflow to infinity and underflow to zero.", "quantifier": "all texts of the accepted grammar up to INT_MAX - 9999 characters", "why_tests_cant": "infinitely many texts; hard cases lie extremely near rounding boundaries", "anchors": ["include/__nanostrutil.h: s2d_n, floor_log2, mulShift64"]}
{"id": "C31", "title": "parser rejects malformed and over-long input without reading outside it", "statement": "Every input up to INT_MAX - 9999 bytes is either accepted exactly when it is a numeral within the digit limits, or reported as input-too-short/too-long/malformed, reading only indices below the given length; stod then returns NaN. (Near INT_MAX bytes the exponent computation overflows an int.)", "quantifier": "all byte strings and lengths", "why_tests_cant": "all malformed inputs", "anchors": ["include/__nanostrutil.h: s2d_n, s2f_n", "include/nanostring.h: stod"]}
{"id": "C32", "title": "decimal-to-float parser is correctly rounded", "statement": "For every text -?digits[.digits][e[-+]?digits] of at most 9 significant digits, with at most 4 significant exponent digits, s2f_n returns the nearest float, ties to even, overflow to infinity and underflow to zero.", "quantifier": "all texts of the accepted grammar up to INT_MAX - 9999 characters", "why_tests_cant": "infinitely many texts", "anchors": ["include/__nanostrutil.h: s2f_n"]}
{"id": "C33", "title": "formatting and parsing are inverse", "statement": "Parsing the text printed for any finite float/double with s2f_n/s2d_n returns exactly the same bit pattern (sign of zero included); stod, whose return type is float, does not.", "quantifier": "all finite bit patterns", "why_tests_cant": "2^64 inputs", "anchors": ["include/__nanostrutil.h: d2s_buffered, s2d_n, f2s_buffered, s2f_n", "include/nanostring.h: to_string, stod"]}
{"id": "C34", "title": "Ryu integer helpers equal their mathematical definitions on the whole used range", "statement": "log2pow5, pow5bits, ceil_log2pow5, log10Pow2, log10Pow5, decimalLength9/17, pow5Factor, multipleOfPowerOf2/5, umul128, shiftright128, mulShift: each equals its exact mathematical definition for every argument in the stated range; the 32-bit-platform and 64-bit-platform variants agree.", "quantifier": "all arguments in the documented ranges", "why_tests_cant": "ranges include all 64-bit values", "anchors": ["include/__nanostrutil.h: log2pow5, pow5bits, ceil_log2pow5, log10Pow2, log10Pow5, decimalLength9, decimalLength17, umul128, shiftright128, div5, div10, div100, mod1e9, pow5Factor, multipleOfPowerOf5, multipleOfPowerOf2"]}
{"id": "C35", "title": "power-of-five tables are exact", "statement": "Every entry of the double power-of-5 and inverse tables is the correctly truncated (resp. rounded-up) 125-bit approximation of the corresponding power of five.", "quantifier": "all 342 + 326 entries", "why_tests_cant": "a typo in one digit is invisible until one exponent range is used", "anchors": ["include/ryu/d2s_full_table.h: DOUBLE_POW5_INV_SPLIT, DOUBLE_POW5_SPLIT"]}
{"id": "C36", "title": "thread runs its function once and join waits for it", "statement": "Constructing thread(f,args) runs f(args) exactly once on a new thread, joinable() is true until join(), and join() returns after f.", "quantifier": "all functions and schedules", "why_tests_cant": "schedules", "anchors": ["include/nanothread.h: thread", "src/nanothread.cc: thread::join, joinable, ~thread"]}
{"id": "C37", "title": "map priority generator never degenerates", "statement": "The xorshift generator never reaches 0 from its seed, is a bijection on 32-bit states and so never gets stuck.", "quantifier": "all states", "why_tests_cant": "2^32 states per step, unbounded iterations", "anchors": ["include/nanomap.h: priority_rand"]}
{"id": "C38", "title": "numeric_limits values are the true limits", "statement": "min/max/lowest/epsilon/digits10/infinity/quiet_NaN/denorm_min of each specialisation equal the mathematical limit of the type.", "quantifier": "all values of each type", "why_tests_cant": "'no value is larger' is a universal claim", "anchors": ["include/nanolimits.h: numeric_limits"]}
{"id": "C39", "title": "pair ordering is lexicographic and consistent with equality", "statement": "operator< on pair is a strict total order whenever the components' are, lexicographic, and equality is componentwise.", "quantifier": "all component orders", "why_tests_cant": "order laws over arbitrary types", "anchors": ["include/nanoutility.h: pair, operator==, operator<, make_pair"]}
{"id": "C40", "title": "valarray behaves as a sequence and maps functions elementwise", "statement": "valarray mirrors C01's sequence behaviour, valarray(n) has n elements, and sin(valarray) has the same size with sin applied to each element.", "quantifier": "all sizes and histories", "why_tests_cant": "unbounded sizes", "anchors": ["include/nanovalarray.h: valarray, sin"]}
{"id": "C41", "title": "map iterator comparison is defined for every pair of iterators", "statement": "it == jt and it != jt are defined, complementary, and true/false according to whether they denote the same position, including when either is end().", "quantifier": "all maps and iterators", "why_tests_cant": "a test that only uses != never exercises the faulty path", "anchors": ["include/nanomap.h: iterator::operator==, operator!=, isEnd"]}
{"id": "C42", "title": "map copies are independent", "statement": "Copying a map yields an independent map: each may be modified and destroyed without affecting the other and every node is released once.", "quantifier": "all reachable maps", "why_tests_cant": "needs reasoning about ownership of every node of an arbitrary tree", "anchors": ["include/nanomap.h: map (implicit copy operations), ~map, __delete"]}
{"id": "C43", "title": "exp and exp2 are accurate, total and saturating", "statement": "fast_exp2 has relative error at most 3e-5 on [-126,126] (1.5e-5 above -125); exp has relative error at most 3.1e-5 + 1e-7|x| on |x| <= 87.33; beyond |x| >= 87.34 it returns exactly 2^126 or 2^-126; for every argument, also infinite or NaN, the call is defined and the result is positive and finite.", "quantifier": "all 2^32 float arguments", "why_tests_cant": "accuracy over all floats against the real exponential needs error analysis, and a test oracle is itself a floating-point approximation", "anchors": ["include/nanomath.h: fast_exp2, exp(float)"]}
{"id": "C44", "title": "log2, log and log10 are accurate on all positive normal floats", "statement": "fast_log2 is within 4.5e-6, log within 7.2e-6 and log10 within 5.3e-6 of the real logarithm for every positive normal float; the zeros give -infinity and 1 gives +0.", "quantifier": "all positive normal floats and zeros", "why_tests_cant": "accuracy over all floats against the real logarithm needs error analysis", "anchors": ["include/nanomath.h: fast_log2, log, log10"]}
{"id": "C45", "title": "sin and cos are accurate and stay in [-1,1]", "statement": "For |x| <= 25732 sin(float) is within 5.4e-7 and cos(float) within 8.7e-7 of the real sine and cosine; for all finite |x| <= 6746517000 both calls are defined with a finite result in [-1,1]; for larger, infinite or NaN arguments the conversion to int is undefined behaviour.", "quantifier": "all 2^32 float arguments", "why_tests_cant": "accuracy against the real functions needs error analysis of the argument reduction; the range bound hinges on rounding near pi/2", "anchors": ["include/nanomath.h: fast_rint, sin(float), cos(float)"]}
{"id": "C46", "title": "tan is accurate up to its derivative", "statement": "For |x| <= 12866 with |cos x| >= 1e-6, tan(float) returns a finite value within 5e-7 (1 + tan^2 x) of the real tangent; for |x| >= 3373260500, infinite or NaN arguments it is undefined behaviour.", "quantifier": "all floats in the stated ranges", "why_tests_cant": "needs error analysis near poles", "anchors": ["include/nanomath.h: tan(float)"]}
{"id": "C47", "title": "sinh, cosh and tanh are accurate and saturate", "statement": "sinh(float) is within 3e-7 of the real hyperbolic sine for |x| <= 1 and within the relative error 2.2e-5 + 1.4e-7|x| for 1 <= |x| <= 87.33; cosh(float) is within the relative error 1.7e-5 + 1e-7|x| for |x| <= 87.33; for |x| >= 87.34 they return exactly +-2^125 instead of overflowing; tanh(float) is within 9.5e-6 of the real tanh for every finite argument and never leaves [-1, 1].", "quantifier": "all finite floats in the stated ranges", "why_tests_cant": "error bounds over 2^32 inputs against real functions; rounding, cancellation and overflow cases", "anchors": ["include/nanomath.h: sinh(float)", "include/nanomath.h: cosh(float)", "include/nanomath.h: tanh(float)"]}
{"id": "C48", "title": "sqrt is accurate to 0.18% on normal numbers", "statement": "For every positive normal float x, sqrt(float) returns a finite value between (1 - 0.00176) and (1 + 1/700000) times the real square root. It is not exact at perfect squares and is wrong by orders of magnitude on subnormal numbers.", "quantifier": "all positive normal floats", "why_tests_cant": "one bound over two billion inputs of a bit-trick guess refined by one Newton step; needs a worst-case analysis of the guess and of every rounding", "anchors": ["include/nanomath.h: sqrt(float)"]}
{"id": "C49", "title": "cbrt is accurate from epsilon up", "statement": "For every finite float x with |x| >= 2^-23, cbrt(float) is within the relative error 1.5e-6 of the real cube root, of either sign; for smaller |x| the result is 0, so the error stated in the source is false.", "quantifier": "all finite floats", "why_tests_cant": "needs a worst-case analysis of the guess and two Newton-like steps for all inputs", "anchors": ["include/nanomath.h: cbrt(float)"]}
{"id": "C50", "title": "erf and erfc are accurate and stay in range", "statement": "For every finite float x, erf(float) is within 2.6e-6 of the real error function and stays in [-1,1], erfc(float) is within 2.7e-6 of 1 - erf and stays in [0,2]; at the infinities they return exactly +-1, 0 and 2, and NaN gives NaN. The relative error of erfc is unbounded.", "quantifier": "all 2^32 float arguments", "why_tests_cant": "accuracy against an integral for all inputs, including intermediate overflow to infinity for large arguments", "anchors": ["include/nanomath.h: erf(float)", "include/nanomath.h: erfc(float)"]}
{"id": "C51", "title": "pow is accurate, saturates and handles signs", "statement": "For x >= 2^-23 and |y| <= 1000, pow(x, y) has a relative error of at most 1.6e-5 + 4.2e-7 |y| + 9e-8 |y log2 x| while |y log2 x| <= 124.99, and is exactly 2^126 or 2^-126 (y other than 1 and 2) when y log2 x is beyond 126.01 in absolute value. For |y| < 2^-23 the result is 1, for |x| < 2^-23 otherwise 0; y = 1 returns x, y = 2 the rounded square limited to the largest float. For negative x an integer y gives the value for |x|, negated for odd y, and a non-integer y gives 0. The call is defined for all arguments.", "quantifier": "all pairs of floats in the stated ranges", "why_tests_cant": "2^64 argument pairs; error amplification by the exponent; parity of every float exponent", "anchors": ["include/nanomath.h: pow(float, float)"]}
{"id": "C52", "title": "ierf inverts the error function", "statement": "For every float x in [-1, 1], ierf(x) is finite, at most 5 in absolute value, and the error function of the result differs from x by at most 6.7e-5; for |x| <= 0.9966 by at most 1.8e-6 |x| (plus 2^-149). Hence erf(ierf(x)) computed by the library is within 7e-5 (4.5e-6) of x. Negating the argument negates the result. For 1 < |x| <= 10^30 the result is between 3.82 and 3.83 times x; infinities are returned unchanged and a NaN gives a NaN.", "quantifier": "all floats in the stated ranges", "why_tests_cant": "inverse of a transcendental function over 2^31 arguments with three chained approximations; no finite test compares with the integral", "anchors": ["include/nanomath.h: ierf(float)"]}
{"id": "C53", "title": "optional manages the lifetime of its value and behaves as a value-or-nothing", "statement": "For every sequence of calls on optionals (construction, copy, move, assignment, emplace, reset, swap, observers, destruction) and every choice of which element operations throw: no value is constructed over a live one, and none is read, assigned or destroyed unless it is there; has_value() is true exactly when a value is alive; every value constructed has been destroyed exactly once except the one held by each engaged optional, so nothing leaks. When nothing throws, results and contents are those of a mathematical option. When an element operation throws, only the optionals named in the call change, in the documented way. An element type that promises that nothing throws gives calls that are left by no exception but bad_optional_access, and are never terminated. The comparison operators order the empty optional first and agree with the element order. Shown false: copy assignment lets a throwing copy reach the caller (it terminates if moves are noexcept), and emplace from the optional's own value is safe.", "quantifier": "all call sequences of any length, all element types (values, move results, noexcept promises) and all patterns of throwing operations", "why_tests_cant": "exceptions can be thrown at any of the element operations in any history; leaks and double destruction do not show in results", "anchors": ["include/nonstd/optional.hpp: optional", "include/nanooptional.h"]}
{"id": "C54", "title": "expected<T,E> manages the lifetimes of value and error", "statement": "For every sequence of calls on expected<T,E> (construction from values, errors and other expecteds, copy and move, assignment, emplace, swap, observers, destruction) with T and E whose moves do not throw, and every choice of which of their other operations throw: no object is constructed over a live one and none is read, assigned or destroyed unless it is there as that alternative; each expected in scope holds exactly one object, a T when has_value() and an E otherwise, and every other object constructed has been destroyed exactly once. When nothing throws, results and contents are those of a value-or-error sum. If swaps do not throw either, a call left by an exception has had no effect. Types that promise that nothing throws give calls that are left by no exception but bad_expected_access, and are never terminated. Equality compares kind and content. Shown false: safety with throwing moves (swap leaves a destroyed error that is destroyed again), and that a throwing copy in construction from a non-const lvalue reaches the caller (the program is terminated).", "quantifier": "all call sequences of any length, all element types with noexcept moves, all patterns of throwing operations", "why_tests_cant": "exceptions can be thrown at any element operation in any history; double destruction and leaks do not show in results", "anchors": ["include/nonstd/expected.hpp: expected<T,E>", "include/nanoexpected.h"]}
{"id": "C55", "title": "expected<void,E> manages the lifetime of its error", "statement": "For every sequence of calls on expected<void,E> and every pattern of throwing operations, an error is alive exactly when has_value() is false and every error constructed is destroyed exactly once. Exceptions leave the contents unchanged if E's swap does not throw, and end the program only in a move assignment for an E whose move and move assignment promise not to throw but whose swap does not. This holds as long as assignment, emplace and swap are used between two successes or two errors; it is false in general: swap (and thus every assignment) between a success and an error never destroys the old error, so it leaks, and swapping back constructs over a live object.", "quantifier": "all call sequences of any length, all error types and all patterns of throwing operations", "why_tests_cant": "a leak does not show in results and depends on the history of the object", "anchors": ["include/nonstd/expected.hpp: expected<void,E>"]}
{"id": "C56", "title": "variant manages the lifetimes of its alternatives and visits what it holds", "statement": "For every sequence of calls on variant<T0,...> (construction, copy, move, assignment of variants and values, emplace, swap, index, valueless_by_exception, holds_alternative, get, get_if, visit of up to five variants, destruction) and every choice of which operations of the alternatives throw: no object is constructed over a live one and none is read, assigned or destroyed unless it is there with that type; each variant in scope holds exactly one object, of the type index() says, or none when valueless; every other object constructed, including the copies made by visit and swap, has been destroyed exactly once. When nothing throws, results and contents are those of a tagged value and no variant becomes valueless. Alternatives that promise that nothing throws give calls that are left by no exception but bad_variant_access, and (but for visit of a valueless variant) are never terminated. visit passes the held values of all its arguments, in order, and changes none. Comparison orders valueless first, then by index, then by value. Shown false: that a failed copy assignment keeps the old value, that a throwing move constructor in move assignment reaches the caller when move assignments are noexcept, that visit makes no copies of its arguments.", "quantifier": "all call sequences of any length, any number of alternatives up to 16, all patterns of throwing operations", "why_tests_cant": "exceptions can be thrown at any element operation in any history; double destruction and leaks do not show in results", "anchors": ["include/nonstd/variant.hpp: variant, get, get_if, holds_alternative, visit, operators", "include/nanovariant.h"]}
{"id": "C57", "title": "Atomic integers do what their documentation says in every interleaving", "statement": "For any number of threads, any programs of atomic operations on one thread_atomic_int_t and any interleaving, each operation takes effect at once, returns the value before it and leaves the documented value (ints that wrap around); threads that only increment a counter get pairwise different numbers. Proved for load, inc, dec, add and sub, and on Windows for all operations. False with the GCC builtins: store and swap leave 0 (they end with __sync_lock_release), and compare_and_swap of the value that load returns can fail for ever once the 64-bit variable has left the range of int.", "quantifier": "all numbers of threads, programs and interleavings", "why_tests_cant": "interleavings cannot be enumerated; the number of threads and operations is unbounded", "anchors": ["src/libs_thread.h: thread_atomic_int_load, store, inc, dec, add, sub, swap, compare_and_swap"]}
{"id": "C58", "title": "The thread queue is a bounded first-in-first-out queue in every interleaving", "statement": "For one producer and one consumer thread, any programs and any interleaving: the results are those of a bounded FIFO queue in which each call takes effect at one moment during the call; values come out in order, none is lost or duplicated, a value is dropped exactly when the queue is full and NULL is returned exactly when it is empty; no access is out of bounds and the two threads never touch the same slot at once. Proved for executions in which no call waits (in particular whenever timeout 0 is passed) with fewer than 2^31 values, and for executions with waits in which every signal consumed is not stale and no wait times out. False otherwise: a stale signal makes a blocking consume on an empty queue return garbage and a blocking produce on a full queue overwrite a value; a produce that times out writes all the same; a consume with a finite timeout never times out; with the GCC builtins initial values are lost; after 2^31 values an access is out of bounds.", "quantifier": "all programs of the two threads and all interleavings of their atomic steps", "why_tests_cant": "the wrong interleavings are rare and not reproducible; the wrap-around needs 2^31 calls", "anchors": ["src/libs_thread.h: thread_queue_init, thread_queue_produce, thread_queue_consume, thread_queue_count"]}
{"id": "C59", "title": "Signals: mutual exclusion, one wait per raise, no lost wakeup in every interleaving", "statement": "For any number of threads calling thread_signal_raise and thread_signal_wait in any interleaving, with spurious wakeups and time-outs: at most one thread is between lock and unlock; the waits that return 1 are not more than the raises begun; a raise is not forgotten (the signal stays up until a wait returns 1); there is no deadlock, and no thread sleeps in a wait for ever while the signal is up, provided no wait times out or only one thread waits. (With several waiters, one of them timed, this is false: the timed waiter may swallow the wakeup.) The deadline computed for a timed wait is a normalised timespec exactly timeout_ms after the time read, without integer overflow.", "quantifier": "all numbers of threads, programs and interleavings; all times and timeouts", "why_tests_cant": "lost wakeups depend on rare interleavings, spurious wakeups and the choice of the woken thread, which tests do not control", "anchors": ["src/libs_thread.h: thread_signal_init, thread_signal_raise, thread_signal_wait"]}
{"id": "C60", "title": "any: no leak, no dangling pointer, value semantics, checked casts", "statement": "For every program over any objects (construction, copy, move, assignment, emplace, reset, swap, any_cast, assignment through the pointer any_cast gives), whatever the element types and whichever of their operations throw: the heap object behind an any is owned by it alone, is never used after it was deleted, deleted twice or used as another type, and none is left when all anys are gone; the contents are those of a plain variable holding nothing or a value with its type (copies are independent, moved-from is empty, self-assignment and self-move change nothing); any_cast succeeds exactly for the stored type; a call left by an exception has no effect; element types that promise that nothing throws give calls that are left by no exception but bad_any_cast, and are never terminated. The program can be ended only by an exception in the constructor from a value (also in x = value and emplace), which is declared noexcept although it copies or moves the value.", "quantifier": "all client programs, element types, values and patterns of exceptions", "why_tests_cant": "leaks and double deletes show only on particular combinations of exceptions, self-assignment and moves", "anchors": ["include/nonstd/any.hpp: any", "include/nanoany.h"]}
{"id": "C61", "title": "fast_float: word-at-a-time digit tricks equal their definitions", "statement": "Reading eight characters as one 64-bit word gives the same word on little- and big-endian machines; the bit test accepts exactly eight decimal digits; the three multiplications turn them into the number they spell; leading_zeroes counts the zeros above the top bit in both its versions; full_multiplication is the exact 128-bit product in both its versions; the test for eight '0' characters is exact.", "quantifier": "all character sequences, all 64-bit words, both endiannesses, 32- and 64-bit machines, with and without compiler intrinsics", "why_tests_cant": "2^64 words and 2^128 pairs of factors; the portable versions are not compiled on the usual test machine", "anchors": ["include/fast_float/ascii_number.h: byteswap, read_u64, parse_eight_digits_unrolled, is_made_of_eight_digits_fast", "include/fast_float/float_common.h: leading_zeroes, full_multiplication", "include/fast_float/digit_comparison.h: skip_zeros"]}
{"id": "C62", "title": "fast_float: the power-of-five table is exact", "statement": "Each of the 651 pairs of words is the 128-bit significand of 5^q for q = -342 .. 308: the top 128 bits of 5^q for q >= 0, the quotient of a power of two by 5^-q for q < 0, rounded down for q < -27 and up for -27 <= q < 0.", "quantifier": "all entries", "why_tests_cant": "a single wrong bit changes the result only for few decimals", "anchors": ["include/fast_float/fast_table.h: power_of_five_128"]}
{"id": "C63", "title": "fast_float: compute_float is correctly rounded or says it cannot decide", "statement": "For every 64-bit w and every q, compute_float either returns an adjusted mantissa with exponent >= 0 from which to_float makes the float or double nearest to w*10^q (ties to even, gradual underflow, overflow to infinity), or one with negative exponent that stands for an estimate m*2^e <= w*10^q < (m+4)*2^e with m a normalized 64-bit number; compute_error always gives such an estimate. No shift is undefined and no assertion fails.", "quantifier": "all w < 2^64, all q, float and double, all targets", "why_tests_cant": "the space is 2^64 times 650, wrong results differ in the last bit for a vanishing fraction of it", "anchors": ["include/fast_float/decimal_to_binary.h: compute_product_approximation, compute_error, compute_float", "include/fast_float/float_common.h: to_float, binary_format"]}
{"id": "C64", "title": "fast_float: big integers compute exactly", "statement": "The fixed-capacity big integers behave as the integers they represent: construction from a 64-bit word, adding and multiplying by one limb, shifting left, multiplying by powers of five and ten, comparison, number of bits, and the top 64 bits with the flag for anything cut off below. An operation succeeds whenever its result fits the capacity (62 limbs of 64 bits, 125 of 32 bits).", "quantifier": "all representable numbers and operands, 32- and 64-bit limbs, with and without compiler intrinsics", "why_tests_cant": "thousands of bits of state; carries that ripple over several limbs are rare; the portable versions are not compiled on the usual test machine", "anchors": ["include/fast_float/bigint.h: stackvec, scalar_add, scalar_mul, small_add, small_mul, large_add_from, long_mul, large_mul, bigint"]}
{"id": "C65", "title": "fast_float: the scanner finds the longest allowed numeral and its digits", "statement": "parse_number_string finds the longest numeral the format flags allow at the start of the text ([-]digits[.digits][e[+-]digits], some digit, exponent only with scientific and required without fixed), which is unique, or reports that there is none. Sign, digit ranges and the text behind are those of the numeral; mantissa and exponent give its value exactly up to 19 significant digits, and its leading 19 digits with the flag set beyond.", "quantifier": "all texts, formats and decimal points that are not digits, minus or exponent letters, all targets", "why_tests_cant": "texts are unbounded; the grammar has many boundary cases (digits only after the point, an exponent letter without digits, leading zeros before more than 19 digits)", "anchors": ["include/fast_float/ascii_number.h: parse_number_string"]}
{"id": "C66", "title": "fast_float: the last resort and the fast path are exact", "statement": "Given the digits of a literal of any length and the scanner's leading 19 digits with a 64-bit estimate of them, digit_comp returns the float or double nearest to the exact decimal, ties to even: its big integers never run out of capacity, and dropping digits beyond 769 (114) and putting a 1 behind them never changes the decision. For mantissas up to 2^53 (2^24) and powers of ten up to 22 (10), one multiplication or division gives the nearest value too.", "quantifier": "all digit sequences, exponents, estimates and targets; both formats", "why_tests_cant": "the deciding inputs have hundreds of digits and agree with a halfway point in all but the last; random tests never produce them", "anchors": ["include/fast_float/digit_comparison.h: digit_comp, positive_digit_comp, negative_digit_comp, parse_mantissa, round, to_extended_halfway", "include/fast_float/parse_number.h: from_chars_advanced (fast path)"]}
{"id": "C67", "title": "fast_float: from_chars returns the nearest value of the longest numeral", "statement": "from_chars and from_chars_advanced return, for every text, the float or double nearest to the exact value of the longest numeral at its start that the format allows (ties to even, gradual underflow, overflow to infinity, signed zero) and the position behind it, whichever of the internal paths is taken and on whatever machine. Texts are shorter than 2^28 - 1000 characters; beyond, the exponent cap can give a wrong value, and there is a text where it does.", "quantifier": "all texts of that length, formats, decimal points, float and double, all targets", "why_tests_cant": "infinitely many decimals; the paths differ in inputs that random tests hit with negligible probability; big-endian, 32-bit and other-compiler variants are not run", "anchors": ["include/fast_float/parse_number.h: from_chars, from_chars_advanced", "include/fast_float/ascii_number.h", "include/fast_float/decimal_to_binary.h", "include/fast_float/digit_comparison.h", "include/fast_float/bigint.h"]}
{"id": "C68", "title": "fast_float: special values", "statement": "Where there is no numeral, nan - with an optional group of letters, digits and underscores in parentheses - and inf or infinity, in any case and with an optional minus, are recognised, the longest of them, with the right sign; every other text gives invalid_argument at its start.", "quantifier": "all texts, float and double", "why_tests_cant": "the space of texts is unbounded; the case-insensitive comparison works on bits and could accept other characters", "anchors": ["include/fast_float/parse_number.h: parse_infnan", "include/fast_float/float_common.h: fastfloat_strncasecmp"]}
{"id": "C69", "title": "compile-time sequences are what they are named", "statement": "make_index_sequence<N> is 0..N-1 for every N below 2^20 and is rejected above; at_index<I> picks the I-th type and is rejected out of range; is_all is the conjunction; sum, exclusive_scan and inclusive_scan are the sum and the prefix sums. This holds with fold expressions and with the C++11 replacements (sizeof of a class of char arrays, comparison of shifted sequences). For signed types it holds when the positive and the negative parts are representable; otherwise the two implementations differ: INT_MAX + 1 is rejected by one and is INT_MIN in the other.", "quantifier": "all N, all lists of types and numbers with less than 2^20 - 1 elements and sums below 2^63, both implementations", "why_tests_cant": "a test instantiates a handful of sequences with one compiler; the doubling generator could fail for particular bit patterns of N", "anchors": ["include/tao/seq/make_integer_sequence.hpp", "include/tao/seq/sum.hpp", "include/tao/seq/is_all.hpp", "include/tao/seq/at_index.hpp", "include/tao/seq/exclusive_scan.hpp", "include/tao/seq/inclusive_scan.hpp", "include/tao/seq/partial_sum.hpp"]}
{"id": "C70", "title": "tuple: access, comparison and tuple_cat", "statement": "tuple_cat of any tuples, empty ones included, has the elements of all of them in order. get<I> is the I-th element; get<T> is the element of type T when exactly one has that type and is rejected otherwise. == holds iff all elements are equal, < is the lexicographic order, !=, >, <= and >= agree with them, and all six form a strict weak order if the elements' < is one.", "quantifier": "all tuples with less than 2^20 - 1 elements, all element operators, both preprocessor variants", "why_tests_cant": "the index computations of tuple_cat go through scans of the sizes, whose errors show only for particular patterns of empty tuples", "anchors": ["include/tao/tuple/tuple.hpp: tuple_cat, get, operator==, operator<", "include/nanotuple.h"]}
{"id": "C71", "title": "tuple: assignment and swap", "statement": "Assigning a tuple of other element types copies or moves element by element from the first: every element gets the old value of its partner provided its location is not a source of a later element, moved-from sources are left moved from once, nothing else changes. swap exchanges all elements of two tuples; self-swap and self-assignment change nothing. tie(a, b) = tie(b, a) does not exchange a and b.", "quantifier": "all tuples of values and references, all stores", "why_tests_cant": "aliasing patterns between the two tuples are unbounded", "anchors": ["include/tao/tuple/tuple.hpp: tuple_base::operator=, swap, tie"]}
{"id": "C72", "title": "type transformations", "statement": "remove_cv, remove_const and remove_volatile take off exactly the named top-level qualifiers, of arrays too; add_lvalue_reference, add_rvalue_reference and add_pointer form the reference or pointer to the referred type where one exists, collapse references, leave the type alone otherwise, and are undone by remove_reference; move yields an rvalue reference to the referred type for every argument; decay gives the type of a by-value parameter and is idempotent; remove_extent and remove_all_extents drop one or all dimensions.", "quantifier": "all C++ types: qualified arithmetic, class, union, enum, pointer, member pointer, reference, array, function types of any nesting", "why_tests_cant": "types are an infinite recursive family; a test names a few", "anchors": ["include/nanotype_traits.h: remove_const, remove_volatile, remove_cv", "include/nanotype_traits.h: add_lvalue_reference, add_rvalue_reference, add_pointer", "include/nanotype_traits.h: move, decay, remove_extent, remove_all_extents"]}
{"id": "C73", "title": "type categories", "statement": "is_same decides identity of types. Every type satisfies exactly one of the primary traits, and each trait answers by category, except that a union counts as a class, is_union never holds, and char16_t, char32_t and the type of nullptr count as enumerations. is_scalar and is_object are right for every type. is_signed and is_unsigned hold of the arithmetic types that have, or do not have, negative values, whatever the platform's char and wchar_t.", "quantifier": "all C++ types, all platforms the standard allows", "why_tests_cant": "the exceptions come from the order of fall-through definitions and are invisible unless that type is tried", "anchors": ["include/nanotype_traits.h: is_void ... is_enum, is_function, is_union, is_class", "include/nanotype_traits.h: is_scalar, is_object, is_signed, is_unsigned, is_same"]}
{"id": "C74", "title": "common_type", "statement": "The instantiation of common_type always terminates, its result is decayed and depends on the decayed arguments only; of one type it is the decay. For arithmetic types, however qualified or referenced, it exists, is independent of the order and repetition of the arguments, is the largest floating type if there is one, and otherwise an integer type no argument exceeds, unsigned only if the promotion of some argument is.", "quantifier": "all lists of types, all platforms the standard allows; the conditional operator of classes is arbitrary", "why_tests_cant": "the recursion is over the length of the argument list and order independence ranges over all permutations", "anchors": ["include/nanotype_traits.h: common_type, __common_type_impl, __common_type2_imp"]}
{"id": "C75", "title": "conversion and lifetime traits", "statement": "is_convertible<From, To> holds iff a function returning To may return declval<From>(). is_destructible holds of references, of objects with an accessible destructor, of arrays of known bound of such, and of nothing else. is_default_constructible agrees with the language for types that are not arrays and is always false for arrays. is_empty is right for non-final classes of alignment up to that of double; for unions and final classes it does not compile, for stricter alignment it is wrong.", "quantifier": "all types, all choices of conversions, destructors, constructors and layouts of the classes", "why_tests_cant": "classes with deleted or private members, final or over-aligned ones come in unbounded variety", "anchors": ["include/nanotype_traits.h: is_convertible, __is_convertible", "include/nanotype_traits.h: is_destructible", "include/nanotype_traits.h: is_default_constructible, is_constructible", "include/nanotype_traits.h: is_empty"]}
{"id": "C76", "title": "aligned_storage", "statement": "aligned_storage<Len, Align> for a power of two Align has alignment Align and a size at least Len that is a multiple of Align; for Align up to 2^14 the least such. Without Align the alignment is that of a listed type: the largest not above Len, or the smallest of all.", "quantifier": "all lengths, all alignments, all type lists", "why_tests_cant": "the alignment is found by recursion over a type list whose order matters", "anchors": ["include/nanotype_traits.h: aligned_storage, __find_max_align, __select_align, __find_pod"]}
{"id": "C77", "title": "type_info comparison and hash", "statement": "For each of the three ways of naming types (one copy of each name; several copies; a top bit telling them apart), == and before always return; == is an equivalence, before a strict total order on its classes, and equal type_infos have equal hash codes. Names guaranteed to have one copy are compared by address and come before the others, which are compared as texts.", "quantifier": "all addresses below 2^64, all NUL-terminated names of any length", "why_tests_cant": "whether several copies of a name exist depends on the linker and shared libraries", "anchors": ["include/nanotypeinfo.h: type_info, __type_info_implementations"]}
{"id": "C78", "title": "atomic pointers", "statement": "For any number of threads that load, store, swap and compare-and-swap one atomic pointer, every result and the final pointer are those of the documented operations done one at a time. Of threads that try to replace NULL by their own pointer exactly the first succeeds and all others get its pointer. With the GCC builtins store and swap break this: whenever none is under way the pointer is NULL, whatever was stored.", "quantifier": "all programs of any number of threads, all schedules, all pointers", "why_tests_cant": "the outcome depends on the interleaving; a stored NULL looks like an uninitialised pointer", "anchors": ["src/libs_thread.h: thread_atomic_ptr_load, thread_atomic_ptr_store, thread_atomic_ptr_swap, thread_atomic_ptr_compare_and_swap"]}
{"id": "C79", "title": "timer wait", "statement": "thread_timer_wait(ns) returns only when at least ns nanoseconds have passed, however often signals interrupt it, each nanosleep gets a valid argument, and the only delay is that of the last nanosleep; it returns once a nanosleep is not interrupted. False from 2^31 seconds on where time_t has 32 bits (the loop goes on with an uninitialised struct), and on Windows, where the wait may end up to 99 ns early.", "quantifier": "all 64-bit numbers of nanoseconds, all sequences of interruptions, time_t of 32 to 64 bits", "why_tests_cant": "signals during a sleep, waits of decades and lost nanoseconds do not occur in a test run", "anchors": ["src/libs_thread.h: thread_timer_wait"]}
{"id": "C80", "title": "thread-local storage", "statement": "thread_tls_get returns what the same thread last set for that handle since the handle was created, NULL if nothing, whatever other threads and handles do and however often the system gives out the same key again. thread_tls_create returns NULL exactly when the system has no key left and otherwise a handle not in use. False for key 0, whose handle is NULL, and for a set that runs out of memory, which goes unnoticed.", "quantifier": "all sequences of calls by any number of threads, all ways of the system to choose keys", "why_tests_cant": "keys depend on what else the process has allocated; failures of the system cannot be provoked", "anchors": ["src/libs_thread.h: thread_tls_create, thread_tls_destroy, thread_tls_set, thread_tls_get"]}
{"id": "C81", "title": "ends of threads", "statement": "thread_join waits for the end of the thread and returns the int with which it returned or called thread_exit, for every int and whatever the rest of the register holds; thread_destroy waits for the end. A call is undefined exactly when its handle was not created or was given up, by destroy or, on POSIX, by join; the system keeps just the threads not given up. So the documented sequence of join and destroy is undefined on POSIX, and no sequence with a join is both defined on POSIX and without a leak on Windows; on POSIX the stack size is ignored.", "quantifier": "all numbers of threads, all sequences of calls, all ints", "why_tests_cant": "joining twice usually seems to work, a leaked handle is silent, upper register halves are usually zero", "anchors": ["src/libs_thread.h: thread_exit, thread_create, thread_destroy, thread_join"]}
{"id": "C82", "title": "objects linked by unique_ptr", "statement": "For objects with any number of unique_ptr members, linked in any way, every program keeps this: each object is live or was deleted exactly once, each live object has exactly one owner, and no unique_ptr points to a deleted object. Each operation is undefined exactly when its place or raw pointer is not the client's to use or when a move assignment deletes the object that holds its source or target; otherwise it deletes exactly the descendants of the object that lost its owner, each with the deleter of its owner, and changes no other unique_ptr. Everything still live is below a variable, a raw pointer of the client or a cycle; cycles leak. p = move(p->next) is always undefined, p.reset(p->next.release()) removes one node and keeps the rest.", "quantifier": "all object graphs, all sequences of operations, all depths", "why_tests_cant": "trees and cycles have unbounded shapes; a use after free in the last line of a move assignment is silent", "anchors": ["include/nanomemory.h: unique_ptr(unique_ptr&&), operator=(unique_ptr&&), reset, release, swap, ~unique_ptr"]}
{"id": "C83", "title": "fast_float: conversion of decimals of any length by shifting digits", "statement": "decimal_left_shift and decimal_right_shift by up to 60 places turn a decimal into the decimal of its value times or divided by two to that power, without leading or trailing zeros: exactly when the result has at most max_digits digits, otherwise cut off there, and truncated is set exactly when something was cut off now or before. round gives the nearest integer, ties to even, a tie with digits cut off rounding up. compute_float(decimal) gives the nearest float or double (ties to even, subnormals, underflow to zero, overflow to infinity) of any number of digits, of which at least 768 are kept together with the flag for the others; no index leaves the array, no element is read before it was written, no int32_t overflows.", "quantifier": "all digit sequences of every length, all decimal points, all max_digits from 768, all decimal_point_range from 400, float and double", "why_tests_cant": "the halfway cases that need 768 digits are rare; a wrong table entry or a lost truncated flag changes one last bit", "anchors": ["include/fast_float/simple_decimal_conversion.h: trim, number_of_digits_decimal_left_shift, round, decimal_left_shift, decimal_right_shift, compute_float"]}
{"id": "C84", "title": "ryu and fast_float read the same text as the same number", "statement": "Every text below 2^28 - 1000 chars that s2d_n or s2f_n accepts is read by from_chars to the same bits, up to its end or up to an exponent without digits; the only exception is a text without a digit before the exponent, which ryu reads as zero and from_chars rejects. What to_string prints for a float or double, followed by any bytes that do not start with a digit or an opening parenthesis, is read back by from_chars_advanced with any format that allows an exponent: finite values and infinities with the same bits, NaN as NaN, and the returned pointer is at the first of the following bytes.", "quantifier": "all texts, both formats, all bit patterns, all following bytes, both endiannesses of the target", "why_tests_cant": "2^64 values and unboundedly many texts; two independent algorithms with different tables and different rounding code", "anchors": ["include/__nanostrutil.h: s2d_n, s2f_n", "include/nanostring.h: to_string(float), to_string(double)", "include/fast_float/ascii_number.h, parse_number.h: from_chars, from_chars_advanced"]}
{"id": "C85", "title": "ostream: what os << x appends for each type of x", "statement": "After any history over any number of streams, os << x1 << x2 ... appends the texts of the arguments in order and changes nothing else; str() returns the whole text, flush prints it and empties the stream. bool, short, unsigned short, int and the char types show their number in decimal (int above -10^9), long long within the range of int, float and double the shortest decimal that reads back, a char pointer its chars up to the NUL, a null pointer nothing, nanostl's nullptr the word nullptr, any other object pointer the bytes at its address. long and unsigned long are ambiguous and do not compile; unsigned int, unsigned long long, long double and a streambuf pointer select a function that is defined nowhere; a nanostl::string never returns; wchar_t, char16_t and char32_t do what the type they are promoted to does. cout << 'A' therefore prints 65.", "quantifier": "all histories, all lists of arguments of these types, all values, all platforms with 8-bit char, 16-bit short, 32-bit int and 64-bit long long", "why_tests_cant": "which operator and which to_string a type selects is decided by overload resolution over 14 and 6 candidates; texts depend on all earlier writes", "anchors": ["include/nanoiostream.h: basic_ostream::operator<<, flush", "include/nanostring.h: operator<<, to_string"]}
{"id": "C86", "title": "floats and doubles written to a stream with a separator are read back", "statement": "Any list of floats or doubles, written by os << x << sep to a stream whose text is empty, is read back from str() by alternating from_chars and skipping as many chars as sep has: the same number of values, in order, finite numbers and infinities with the same bits, NaN as NaN, and nothing is left over. sep is any non-empty C string that does not start with a digit or an opening parenthesis.", "quantifier": "all lists whose text is below 2^28 - 2000 chars, all bit patterns, all separators, all histories of the streams before, both endiannesses of the target", "why_tests_cant": "goes through overload resolution, ryu printing, string appending and fast_float parsing; no finite set of values covers it", "anchors": ["include/nanoiostream.h: basic_ostream::operator<<(float), (double), (const void*)", "include/nanosstream.h: operator<<, str", "include/fast_float/parse_number.h: from_chars"]}
{"id": "C87", "title": "thread_mutex: critical sections of one mutex are serial", "statement": "For any number of threads, each running any sequence of critical sections of one mutex, in any interleaving of their single accesses, with critical sections of Windows and with pthread mutexes: nothing undefined happens, no two threads are inside, some thread can go on as long as one is not finished, and in the end registers and variables are those of running whole sections one after the other, each thread's in its order. A counter incremented under the mutex ends at its initial value plus the number of increments; without the mutex increments can be lost. Initialising twice, destroying while a thread is inside, and any use of a destroyed mutex are undefined; after the last section any thread may destroy the mutex. Under Windows a thread may lock any number of times, no other gets the mutex until it has unlocked as often; with pthreads locking twice is undefined, so the two implementations of thread_mutex_lock are not interchangeable.", "quantifier": "all numbers of threads, all programs of critical sections, all initial values, all interleavings, both systems", "why_tests_cant": "the number of interleavings is exponential and a lost update needs one particular of them", "anchors": ["src/libs_thread.h: thread_mutex_init, thread_mutex_term, thread_mutex_lock, thread_mutex_unlock"]}
{"id": "C88", "title": "thread_mutex: threads that take mutexes in increasing order neither race nor deadlock", "statement": "For any number of threads and mutexes, if every thread accesses each variable only while it holds the mutex that guards it, takes mutexes only above those it holds, and gives all back (in any order), then in every interleaving and on both systems: nothing undefined happens, two threads never are about to access the same variable, some thread can go on as long as one is not finished, every execution has as many steps as the programs have instructions in total, and at the end every mutex is free. Two threads that take two mutexes in opposite orders can stop for ever.", "quantifier": "all disciplined programs, all assignments of guards, all interleavings, both systems", "why_tests_cant": "absence of deadlock is about all interleavings of all programs", "anchors": ["src/libs_thread.h: thread_mutex_lock, thread_mutex_unlock"]}
{"id": "C89", "title": "forward, move and move_if_noexcept keep types and value categories", "statement": "Through any number of functions that take T&& x and pass on forward<T>(x), an lvalue stays an lvalue, an rvalue an rvalue, with the same type and qualifiers; functions stay lvalues. forward<U> makes an rvalue of either, forward<U&> accepts only lvalues, move makes an rvalue. move_if_noexcept gives a const lvalue exactly when the type can be copied and its move can throw or is missing, otherwise an rvalue. __decay_copy initialises an object of the by-value type from its argument with the argument's category. The copy and move traits ask about const U& and U&& (assignment to U&), about void as void. __uncvref drops reference and qualifiers, add_const changes exactly the const of types that can be const, enable_if has a type exactly when its condition holds.", "quantifier": "all C++ types, all value categories, all depths, all classes (any answer to which initialisations exist and throw)", "why_tests_cant": "types are unbounded and the wrong category shows only as an extra copy, a dangling reference or a refusal to compile", "anchors": ["include/nanoutility.h: forward, move_if_noexcept, __decay_copy", "include/nanotype_traits.h: move, is_copy_constructible, is_move_constructible, is_copy_assignable, is_move_assignable, is_nothrow_copy_constructible, is_nothrow_move_constructible, add_const, __uncvref, __unconstref, enable_if"]}
{"id": "C90", "title": "unique_ptr: which constructors exist and what they do with the deleter", "statement": "unique_ptr<T, D> with D by value: the constructor without arguments exists exactly for default constructible deleters that are not pointers; with an lvalue of type D or const D the deleter is copied, with an rvalue it is moved (a const rvalue, or a D that cannot be moved, is copied). With D a reference: the deleter is bound to lvalues only, const lvalues only to const references, rvalues are rejected, nothing is default constructed. The same for unique_ptr<T[], D>, whose pointer arguments only convert by adding qualifiers, at any level of pointers as the language allows. Every construction that compiles leaves a deleter that can be called, except: (1) unique_ptr<T, void(*)(T*)>(p) compiles and leaves the function pointer uninitialised, so the destructor calls an indeterminate pointer; (2) unique_ptr<T[], const D&>(nullptr, D()) compiles and refers to the destroyed temporary.", "quantifier": "all deleter types (classes, function pointers, references to them, functions), all argument types and categories, all answers to which constructors the deleter has", "why_tests_cant": "what does not compile cannot be executed, and an indeterminate function pointer may happen to work", "anchors": ["include/nanomemory.h: unique_ptr constructors", "include/nanomemory.h: __compressed_pair", "include/nanomemory.h: __unique_ptr_deleter_sfinae", "include/nanomemory.h: _CheckArrayPointerConversion"]}
{"id": "C91", "title": "unique_ptr with deleters by value and by reference: every object is destroyed once, by the deleter it was handed over with", "statement": "For every program over unique_ptr<T, D> and unique_ptr<T, D&> (construction, moves within and between the two, move assignment including to itself, swap, reset, release, destruction) and the client's own deleter objects: no object has two owners or is deleted twice, a deleted object has no owner, each operation deletes at most one object, with the state its owner's deleter has at that time, and no operation loses an object: it stays owned with the same deleter state, is deleted, or is released to the client. If the client keeps its deleter objects alive and does not change one that an owner refers to, every object is deleted in the state its deleter had when the object was handed over. Operations are undefined only if a deleter of a unique_ptr in scope is gone. Each operation leaves every unique_ptr with the pointer and deleter it is documented to leave and deletes nothing else. Two unique_ptr<T, D&> that share a deleter object break this: move assignment and swap change the deleter of the other owner.", "quantifier": "all programs of any length over any number of unique_ptrs and deleter objects, all states", "why_tests_cant": "the deleter that is called depends on the whole history of moves and swaps", "anchors": ["include/nanomemory.h: unique_ptr(unique_ptr&&), operator=, reset, release, swap, ~unique_ptr, get_deleter", "include/nanomemory.h: __compressed_pair::swap"]}
{"id": "C92", "title": "__weak_result_type: result and argument types of everything reference_wrapper can wrap", "statement": "For every function type, reference or pointer to function and pointer to member function of any class, with any number of parameters and any cv-qualifiers of the member function: exactly one specialisation matches, result_type is the return type, argument_type exists exactly for one argument and is it, first_argument_type and second_argument_type exactly for two, where the pointer to the (equally qualified) class counts as the first argument of a member function. For function objects: result_type is the class's own or its only base's, the argument types are those of its unary_function or binary_function base. Every other type has no typedefs, or does not compile exactly when there is no pointer to it. The choice is never ambiguous. Fails for: function objects whose result_type is a reference (not found, or replaced by that of the base), functions with an ellipsis such as printf, const pointers to functions, ref-qualified member functions.", "quantifier": "all C++ types, all numbers of parameters, all classes", "why_tests_cant": "type-level results for unboundedly many types; a missing or wrong typedef shows only when some code uses it", "anchors": ["include/nanofunctional.h: __weak_result_type", "include/nanofunctional.h: __has_result_type, __derives_from_unary_function, __derives_from_binary_function"]}
{"id": "C93", "title": "iterator_traits, distance and initializer_list", "statement": "For every pointer to a type that can be referred to, iterator_traits gives the pointer itself, the reference that dereferencing yields, and the target without const as value type. distance counts the steps between two pointers into one array (either direction) and is undefined between arrays. An initializer_list over an array holds exactly its elements in order, size is the distance from begin to end. But no program can make such a list: the language makes std::initializer_list of braces and the constructor with elements is private, so every nanostl::initializer_list is empty, and with it every argument of the constructors of optional, variant, expected and any that take one.", "quantifier": "all pointer types, all arrays and positions, all lists that can be made", "why_tests_cant": "element types and arrays are unbounded; that no list has elements is a statement about all programs", "anchors": ["include/nanoiterator.h: iterator_traits, distance", "include/nanoinitializer_list.h: initializer_list, begin, end"]}
{"id": "C94", "title": "unique_ptr conversions: what converts to what, and what the destructor then does", "statement": "With default_delete: unique_ptr<U> converts to unique_ptr<T> (construction and assignment) exactly when U* converts implicitly to T* (qualifiers added, to void, to an accessible unambiguous base); unique_ptr<U[]> to unique_ptr<T[]> exactly when qualifiers are added; never between the two forms, not even through void. Whatever conversions an owner of new A[n] goes through, it stays a unique_ptr to an array of A up to qualifiers and its destructor destroys the array with delete[]. Whatever conversions an owner of new A goes through, it never uses delete[], its destructor fails to compile exactly when it ended as unique_ptr<void>, and is undefined exactly when it ended as an owner of another class whose destructor is not virtual. Nothing prevents the latter, nor giving the result of new A[n] to unique_ptr<A> or of new A to unique_ptr<A[]>, which is undefined.", "quantifier": "all element types, all class hierarchies, all finite chains of conversions", "why_tests_cant": "chains of conversions over unboundedly many types; what does not compile cannot be executed, mismatched delete often goes unnoticed", "anchors": ["include/nanomemory.h: default_delete", "include/nanomemory.h: unique_ptr(unique_ptr<_Up, _Ep>&&)", "include/nanomemory.h: unique_ptr::operator=(unique_ptr<_Up, _Ep>&&)", "include/nanomemory.h: _EnableIfMoveConvertible, _EnableIfDeleterConvertible, _EnableIfDeleterAssignable", "include/nanomemory.h: __pointer"]}
{"id": "C95", "title": "tuple construction: what a tuple can be made from and what its elements are initialised with", "statement": "tuple<Ts...>(es...) with arguments that are not a single tuple compiles exactly when there is one argument per element and each element can be initialised from its argument; element i is then initialised from argument i with its value category, and no constructor is selected whose body fails. tuple() value-initialises all elements and exists exactly when all are default constructible objects. A tuple of the same type is copied element by element, or moved if it is a non-const rvalue, unless its only element can itself be initialised from the tuple: then that wins (for a non-const lvalue the new tuple holds the old one instead of a copy of its element). A tuple of other element types with two or more elements never compiles although the converting constructor is enabled whenever std::tuple's is; with one element, that element is initialised from the whole tuple. With an allocator and values each element gets the arguments uses-allocator construction prescribes (none, leading allocator_arg and allocator, or trailing allocator); with an allocator and no values, or with an allocator and a tuple of two or more elements, nothing compiles; an element that takes its allocator only as an rvalue is asked one way and called another. The tag-dispatch in nanomemory.h, asked for a const lvalue allocator, does what uses-allocator construction prescribes. make_tuple has the decayed types (references for reference_wrapper), forward_as_tuple references of the argument's category, tie lvalue references and only for lvalues; each element is initialised from its own argument, also when the only argument is a tuple.", "quantifier": "all lists of element types, all arguments, all classes (what can be initialised from what is arbitrary), all allocators", "why_tests_cant": "quantifies over all packs of types and overload sets; what does not compile cannot be executed by a test", "anchors": ["include/tao/tuple/tuple.hpp: tuple::tuple (all constructors)", "include/tao/tuple/tuple.hpp: impl::tuple_base, impl::tuple_value", "include/tao/tuple/tuple.hpp: make_tuple", "include/tao/tuple/tuple.hpp: forward_as_tuple", "include/tao/tuple/tuple.hpp: tie", "include/nanomemory.h: uses_allocator", "include/nanomemory.h: __uses_alloc_ctor", "include/nanomemory.h: __user_alloc_construct_impl"]}
{"id": "C96", "title": "is_constructible and is_assignable with arguments answer for the expressions they stand for", "statement": "is_constructible<T, Args...> for an object type that is not an array (and, with one argument, for arrays, void and functions) is true exactly when T t(declval<Args>()...) is well-formed, for any number of arguments; where the number is not one, for classes with an accessible destructor. For a reference it asks whether a parameter of that type accepts the argument, which agrees with the standard except for references that only direct initialisation can bind, and it fails to compile exactly for one argument of type void or of a function type with qualifiers. is_copy_constructible and is_move_constructible ask for a const lvalue and an rvalue of the type. is_assignable and is_nothrow_assignable answer exactly for declval<T>() = declval<A>(). is_nothrow_constructible holds for what is_constructible accepts and is initialised without throwing, except for an array without arguments, for which is_constructible is wrongly false and is_nothrow_constructible may be true.", "quantifier": "all types of the type model, all argument lists, all classes", "why_tests_cant": "a trait has no run-time behaviour; quantifies over all types and argument packs", "anchors": ["include/nanotype_traits.h: is_constructible", "include/nanotype_traits.h: is_assignable", "include/nanotype_traits.h: is_copy_constructible, is_move_constructible", "include/nanotype_traits.h: is_nothrow_constructible", "include/nanotype_traits.h: is_nothrow_assignable"]}
{"id": "C97", "title": "comparisons of unique_ptr form one order across types and with nullptr", "statement": "Two unique_ptrs can be compared, by each of the six operators, exactly when one's pointee class is the other's or a base of it. Then exactly one of <, == and > holds, !=, <= and >= follow from them, and x op y agrees with y op' x. == holds exactly if both are null or one points to the (base) subobject of the object the other points to, whatever the offset. == is transitive, < is transitive and respects ==, also for three unique_ptrs of different types. nullptr on either side is equal to exactly the null unique_ptrs and less than all others, and compares as a null unique_ptr of a related type does. hash<unique_ptr> is injective where the deleter names an integer type as its pointer. Shown false: that hash<unique_ptr<T>> can be used with the default deleter.", "quantifier": "all class hierarchies without virtual bases, all pairs and triples of pointee classes, all addresses", "why_tests_cant": "comparisons between different types depend on the layout of the classes; order laws quantify over triples", "anchors": ["include/nanomemory.h: operator==, !=, <, >, <=, >= of two unique_ptrs", "include/nanomemory.h: operators with nullptr_t", "include/nanomemory.h: hash<unique_ptr>", "include/nanofunctional.h: less, hash", "include/nanotype_traits.h: common_type"]}
{"id": "C98", "title": "__is_swappable answers for the expression swap(x, y)", "statement": "__is_swappable<T> is true exactly when swap(x, y) is well-formed for two lvalues of T (of the referred type, if T is a reference): the type has a swap of its own, or it can be move constructed and move assigned, or it is an array, of any depth, of such elements. __is_nothrow_swappable<T> is true exactly when the swap chosen in that way is noexcept. Both fail to compile exactly for void and for function types with qualifiers. swap of two unique_ptrs exists exactly when their deleters are swappable.", "quantifier": "all types of the type model, all classes, all swaps of their own", "why_tests_cant": "a trait has no run-time behaviour; quantifies over all types, with arrays nested to any depth", "anchors": ["include/nanotype_traits.h: __is_swappable, __is_nothrow_swappable", "include/nanotype_traits.h: swap (declarations)", "include/nanotype_traits.h: __detail::__swappable_with, __nothrow_swappable_with", "include/nanomemory.h: swap of unique_ptr"]}
