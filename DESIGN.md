# Formal model of nanostl (Rocq / Coq 8.16.1)

Everything here is about a Gallina model read off the C++ text in `/repo`; nothing was compiled or run
from `/repo`.  Each model definition cites the file and lines it models and states every simplification.

## Layout

* `rocq/theories/<Area>Model.v`  – definitions only: the code, function by function.
* `rocq/theories/<Area>Spec.v`   – the independent specification (when it is more than one line).
* `rocq/theories/<Area>Proofs.v` – lemmas.
* `rocq/theories/<Area>Props.v`  – the property theorems, each closed by `exact`, each followed by
  `Print Assumptions`, with a concrete non-vacuity `Example` beside it.

Conventions: a C++ function with a precondition returns `option`/`res`; the `UB` outcome is distinct from every
normal outcome.  Machine integers are `Z`/`N` with an explicit `mod 2^w` where wrap-around can matter.
Loops are structural recursion, folds or fuelled recursion whose out-of-fuel value is an error excluded by the
theorem.  A theorem whose name ends in `_refuted` shows that the property as stated is false of the faithful
model and gives a witness; `_partial` means only part of the property is proved.

## Plan per property

| id | what is modelled | how it is proved |
|----|------------------|------------------|
| C01 | heap of arrays, vector record {array pointer, size, capacity}, each member function as a heap transformer | refinement to `list` by induction over operation histories |
| C02 | same model; allocation, release and every element access checked against the heap | invariant over histories: live arrays = arrays owned by live vectors; no `UB` outcome |
| C03 | push_back taking a reference into the array | false at capacity: `_refuted`, plus theorem for spare capacity |
| C04 | erase loop | content part proved; returned iterator refuted (it is the new end) |
| C05 | resize | n>0 proved; n=0 refuted |
| C06 | copy/allocation counters on the same model | potential-function induction |
| C07 | copy ctor / operator= on the shared heap | frame theorem over later histories |
| C08 | string as vector<char> with trailing NUL | refinement to byte lists |
| C09 | operator+/+= | corollaries of C08's refinement |
| C10 | compare_ loop on bytes | equals lexicographic comparison; order laws |
| C11 | += with aliasing, empty | refuted with witnesses, positive part proved |
| C12 | digit loop and 11-byte buffer | all ints above -10^9 proved, refuted below |
| C13 | same with the 32-bit local | refuted outside int, proved inside |
| C14 | treap with explicit nodes | refinement to finite maps, any priority stream |
| C15 | begin/++/end | successor theorem proved; full iteration refuted |
| C16 | BST+heap invariants, node identities | invariant over histories |
| C17 | min/max/max_element/fill loops | induction over ranges, any strict weak order |
| C18 | byte memory as a function | induction on n |
| C19 | template recursion | gcd theory |
| C20 | byte-array loops of hash.cc | equality with an independent SipHash-2-4 spec |
| C21 | hash functors on bit patterns | arithmetic |
| C22 | unique_ptr slots + ghost list of deletions | invariant over histories |
| C23 | stringstream record | refinement to list of writes |
| C24,C25,C26 | IEEE bit patterns via Flocq (`Bits`, `Binary`) | case analysis on fields; refutations by computation |
| C27,C28,C29 | Ryu f2d / d2d / to_chars on Z, tables transcribed | exactness of mulShift by convergent certificates, loop invariants, optimality |
| C30,C31,C32,C33 | s2d_n / s2f_n | as above; round trip by composition |
| C34,C35 | helper functions and tables | finite domains by computation lifted to the stated bound; otherwise algebra |
| C36 | thread object state machine | refuted: constructor runs nothing; handle logic proved |
| C37 | xorshift32 | linear bijection proof |
| C38 | limits as literals | arithmetic / Flocq |
| C39 | pair operators | order laws |
| C40 | valarray (same code as vector) + sin loop over an abstract scalar function | refinement |
| C41 | map iterator comparison on the treap model | case analysis; the null dereference is a `_refuted` witness |
| C42 | implicit map copy (shared root) and the destructor | double free refuted; what holds without copies proved |
| C43, C44 | exp2/exp/log2/log/log10 as sequences of IEEE operations on bit patterns | running error bounds (`FmathStep`), polynomial error by `interval`, exponent-field arithmetic |
| C45, C46 | sin/cos/tan: `fast_rint`, four-part argument reduction, polynomial, final range check | exactness of the first reduction steps (`FmathReduce`), running error bounds, exhaustive check of 8300 floats around pi/2 by a verified integer evaluator (`FmathFast`) |
| C47 | sinh/cosh/tanh from exp and a polynomial, sign copied | error of exp carried through the two halves; exact saturation beyond the range of exp (`FmathHyp`) |
| C48 | sqrt: exponent-halving guess on the bits, one Newton step | error of the guess by cases on the parity of the exponent, Newton step as a real function, scaling by even powers of two (`FmathSqrt`) |
| C49 | cbrt: exponent-thirding guess, two steps, sign copied | error of the guess by cases modulo 3, each step as a real function (`FmathCbrt`) |
| C50 | erf by Abramowitz-Stegun 7.1.28, erfc = 1 - erf | reference function as a Coquelicot integral, approximation error by interval integration and the mean value theorem on segments (`FmathErfRef`), relative rounding errors, a calculus of lower bounds including +inf for large arguments (`FmathErf`) |
| C51 | pow = sign * exp2(y * log2 abs x) with special cases | error of log2 amplified by y, carried through exp2; integrality and parity of y from its bit fields (`FmathPow`) |
| C52 | ierf = p(-log((1-a)(1+a))) * x in two polynomials | mean value bound on erf(a P(w(a))) - a by its derivative, Lipschitz bounds carry the float errors of log, sqrt and Horner (`FmathIerfRef`, `FmathIerf`) |
| C53 | optional as calls of construct/destroy/assign on a world of object slots where every element operation may throw | invariant (flag = liveness, ledger of constructions and destructions) by symbolic execution of every call (`OptProofs`); specification as a map from variables to options (`OptSpec`) |
| C54, C55 | expected<T,E> and expected<void,E> on the same world, with temporaries and swap as in the code | same method (`ExpProofs`, `ExpVoidProofs`), specification as a map from variables to value-or-error (`ExpSpec`) |
| C56 | variant<T0..T15> on the same world with the index as discriminator; visit with the copies of its by-value argument pack | same method (`VarProofs`); visit by induction on the arguments, every copy paired with its destruction (`VarVisit`) |
| C57, C58 | atomic operations as steps of one memory cell; the queue as two threads whose programs, program counters and shared variables form a state, one atomic operation or array access per step; any schedule | invariant over all schedules with an abstract list as ghost state (`QueueProofs`); each call has one step at which it takes effect (`QueueSpec.event`), and the sequence of these is replayed on a sequential queue |
| C59 | signals as any number of threads over a mutex, a condition variable and a flag; moves are a step of a thread (with the choice of the woken thread), a spurious wakeup, a time-out | invariants over all schedules (`SignalProofs`): owner of the mutex, balance of raises and successful waits, somebody alert while the flag is up and a thread sleeps |
| C60 | any as a content pointer into a heap of typed objects, over the lifetimes of `LifeModel`; every throwing operation consults an oracle | ownership invariant (`AnyProofs`): content pointers and live objects are in bijection; each operation on anys is specified by its effect on what the anys hold, and calls are composed from these |
| C61 | fast_float words: 64-bit words with explicit mod 2^64, the endianness and compiler choices a record | byte-wise split of and/or; the digit test and the value by ring arithmetic on the eight digits |
| C62 | the table as listed | evaluation of all 651 entries in the kernel |
| C63 | `compute_float`, `compute_error` step by step, undefined shifts and failing assertions as outcomes | the 128-bit product brackets w*5^q (`FfApprox`), the table rows give what the truncations lose (`FfPow`), the floor of twice the scaled value decides the rounding (`FfRound`, `FfCompute`); the rounding-to-even window is shown to contain every exact tie and no other |
| C64 | limb vectors as lists, carries as in the source | the value function of a vector; each loop keeps value plus carry; capacity from the value's bound |
| C65 | the scanner over the text as a list, pointers as suffixes | every text splits uniquely into sign, digits, point with digits and rest; each loop consumes its part; any allowed numeral at the start is compared part by part |
| C66 | as the source; shifts, 32-bit casts and capacity failures are checked | a halfway point has at most 767 (112) digits, so no truncated decimal straddles one; big integers compared after scaling both sides by the same powers of two and five; capacity by bounding both sides |
| C67 | from_chars_advanced over the scanner and the paths | scanner theorem, then the fast path by Flocq's operations, compute_float with w and w+1 bracketing the literal, or digit_comp; the exponent cap is harmless below the length bound |
| C68 | parse_infnan on the text as a list | or of exclusive-ors is 0 or 32 iff every letter agrees up to case |
| C69 | template metaprograms as functions on lists, `None` a program that does not compile | invariant of the doubling generator (the numbers below the leading bits of N), induction for the rest |
| C70 | tuples as lists, get through the unique base class with the index, tuple_cat through the scans | every result index lies between two prefix sums of the sizes; comparisons by induction on the index |
| C71 | tuples as lists of locations, assignments index by index on a store | induction on the pairs of locations |
| C72 | C++ types as an inductive type, traits as functions on it, partial specialisations by match | structural induction; cases on qualifiers |
| C73 | primary traits as the header defines them, fall-through included; categories given independently | case analysis; the number of traits that hold is 1 |
| C74 | instantiation with an abstract conditional operator; usual arithmetic conversions of the standard | the conversions are a join of a semilattice, for all platforms |
| C75 | SFINAE tests as queries to abstract oracles for classes | case analysis on types |
| C76 | the type-list recursion | induction on the list |
| C77 | words and byte memory, strcmp and the hash loop with fuel | induction on names |
| C78 | atomic pointers as C57 | induction over the schedule against one-step documented operations; invariant that the cell is NULL unless a store is under way |
| C79 | nanosleep by its POSIX contract, interruptions a list of events | induction over the events: time slept plus time left is constant |
| C80 | the system's keys and slots, the choice of keys an arbitrary function | invariant relating the slots to the trace of calls |
| C81 | threads of the system as a list, ends of threads as events | invariant relating the system to the calls; arithmetic modulo 2^32 |
| C82 | places (variables, members of live objects), recursive deletion with a depth | invariant: the pointers held are a permutation of the live objects; induction on the depth and over the members; descendants by an inductive relation |
| C83 | digits as a partial map with read of unwritten elements undefined, u64/i32 arithmetic, parameters for the missing constants | N digits as an integer, shifts as multiplication by 2^s or 5^s then a cut; invariant: digits stand for x/2^e and no multiple of half a unit in the last place lies between them; 10^59 < 2^196 and 2^93 < 10^28 bound the digits needed by 768 |
| C84 | both parsers and the printers as they are | the text ryu accepts is a numeral of its grammar (C31), the same parts are the longest numeral fast_float finds, both give the nearest value, which is unique |
| C85 | argument types, candidates with ranks, the selected operator and to_string, text handed to the stringstream model | per type the resolution is computed with the promotion as the only unknown; each insertion refines one step of the stream specification, induction over the chain |
| C86 | as C85 and fast_float | texts of a listing are number, separator, number, ...; C84_round_trip with the remaining text as following bytes, induction |
| C87 | threads as lists of calls and single accesses, mutex states of both systems, interleaving of steps | invariant: the sections entered so far in order, and what the owner has left of its section; its run from the current memory gives the serial memory |
| C88 | the same | invariant: sets of held mutexes agree with the mutex states and each program is disciplined from its set; progress by descent on the highest held mutex |
| C89 | expressions as type and category over the type model of C72 | case analysis on the type's category, induction over the depth |
| C90 | overload sets of the constructors over the type model of C72 | case analysis on the deleter's category |
| C91 | client programs over numbered objects, variables and deleter objects; log of deleter calls | invariant: owners distinct, owned objects not in the log; per step where each owned object goes |
| C92 | the partial specialisations as a list of patterns over the type model of C72 | case analysis on number of parameters and qualifiers; at most one pattern matches |
| C93 | pointer types; pointers as positions in lists | induction over the rest of the array |
| C94 | the enable_if conditions over the type model of C72 and its is_convertible; deletes as outcomes | the types reached from new A are similar to A, void or a base: preserved by every conversion |
| C95 | overload resolution over the five constructors with one parameter; elements as the arguments they are initialised with | `base_made`, `resolve_made`: only what a candidate does can be made; `construct_each` for the factories |
| C96 | the overload tricks of the boost-style is_constructible as functions of the types, with hard errors as a distinct outcome | by cases on the type; the argument expressions by `argument_spec` |
| C97 | classes as a table of base offsets, pointers as addresses, the composite pointer type | all comparisons of related types are comparisons at any class both convert to (`at_top`); of three pairwise related classes one is a base of the others (`top_of`) |
| C98 | overload resolution among the type's own swap and the two templates, on the traits of C96 | structural induction over arrays |

## Files per area

| area | model | proofs | theorems |
|------|-------|--------|----------|
| fast_float | `FfTable`, `FfModel` (include/fast_float/*.h) | `FfWord`, `FfRound`, `FfPow`, `FfApprox`, `FfCompute`, `FfBig`, `FfScan`, `FfMant`, `FfDigit`, `FfComp`, `FfSlow` | `FfProps`, `FfScanProps`, `FfNumProps` |
| sequences and tuple | `SeqModel` (include/tao/seq/*.hpp), `TupModel` (include/tao/tuple/tuple.hpp 200-212, 347-377, 677-945) | `SeqProofs`, `TupProofs` | `TupProps` |
| type traits | `TyModel` (C++ types), `TraitModel` (include/nanotype_traits.h) | `TraitSpec` (specification), `TraitProofs`, `TraitCommon`, `TraitMore` | `TraitProps`, `TraitProps2` |
| type_info | `TinfoModel` (include/nanotypeinfo.h) | in `TinfoProps` | `TinfoProps` |
| any | `LifeModel`, `AnyModel` (include/nonstd/any.hpp 438-731) | `AnySpec` (specification), `AnyProofs` | `AnyProps` |
| signals | `SignalModel` (src/libs_thread.h 875-1013) | `SignalProofs` | `SignalProps` |
| simple decimal conversion | `SdcTable`, `SdcModel` (include/fast_float/simple_decimal_conversion.h 22-351) | `SdcProofs`, `SdcRound`, `SdcCompute` | `SdcProps` |
| formatted output | `OstrModel` (include/nanoiostream.h 54-72, 89-193, nanostring.h 231-255) | `OstrProps` | `OstrProps`, `OstrBack` |
| ryu against fast_float | (models of ryu and fast_float) | `FfAgree` | `FfAgree` |
| mutexes | `MtxModel` (src/libs_thread.h 778-848) | `MtxProps` | `MtxProps` |
| forwarding | `FwdModel` (include/nanoutility.h 93-132, nanotype_traits.h 340-346, 866-894, 957-1017) | `FwdProps` | `FwdProps` |
| constructors of unique_ptr | `UcModel` (include/nanomemory.h 192-382, 393-503, 605-717) | `UcProps` | `UcProps` |
| unique_ptr with reference deleters | `UrModel` (include/nanomemory.h 472-603) | `UrProps` | `UrProps` |
| result types | `WrtModel` (include/nanofunctional.h 198-450) | `WrtProps` | `WrtProps` |
| iterators and lists | `IlModel` (include/nanoiterator.h 52-88, nanoinitializer_list.h 45-99) | `IlProps` | `IlProps` |
| conversions of unique_ptr | `UdModel` (include/nanomemory.h 125-136, 141-189, 396-398, 432-447, 494-500, 521-529, 550, 608-625, 656-674, 740-760, 773) | `UdProps` | `UdProps` |
| construction of tuples, uses-allocator construction | `TcModel` (include/tao/tuple/tuple.hpp 63-67, 114-199, 230-292, 326-345, 404-511, 532-555, 576-615; include/nanomemory.h 40-119) | `TcSpec`, `TcProofs` | `TcProps` |
| is_constructible, is_assignable | `IcModel` (include/nanotype_traits.h 705-713, 757-785, 836-930, 965-999) | `IcProps` | `IcProps` |
| order of unique_ptr | `UoModel` (include/nanomemory.h 847-1008, nanofunctional.h 39-118, 179-183, nanotype_traits.h 487-500, 541-549) | `UoProps` | `UoProps` |
| is_swappable | `SwModel` (include/nanotype_traits.h 1013-1035, 1175-1248, nanomemory.h 838-845) | `SwProps` | `SwProps` |
| graphs of unique_ptr | `UgModel` (include/nanomemory.h 393-603) | `UgProofs`, `UgStep` | `UgProps` |
| other threading | `OsModel` (src/libs_thread.h 656-758, 1147-1222, 1271-1366) | in the Props files | `OsProps`, `OsProps2` |
| atomics and queue | `QueueModel` (src/libs_thread.h 1016-1144, 1368-1434) | `QueueSpec` (specification), `QueueProofs` | `QueueProps`, `QueueWait` (executions with waits) |
| variant | `LifeModel`, `VarModel` (nonstd/variant.hpp 930-1870, 1900-2343) | `VarSpec` (specification), `VarProofs`, `VarVisit` | `VarProps` |
| expected | `LifeModel`, `ExpModel` (nonstd/expected.hpp 456-775, 1358-2312) | `ExpSpec` (specification), `ExpProofs`, `ExpVoidProofs` | `ExpProps` |
| optional | `LifeModel` (object slots, exceptions, noexcept), `OptModel` (nonstd/optional.hpp 764-1760) | `OptSpec` (specification), `OptProofs` | `OptProps` |
| vector, string, valarray | `Mem`, `VecModel`, `StrModel`, ... | `*Proofs` | `*Props` |
| elementary functions | `FmathModel` (nanomath.h 392-735) | `FmathReal` (IEEE operations as rounded reals), `FmathStep` (running error), `FmathExp`, `FmathLog`, `FmathReduce`, `FmathFast`, `FmathTrig`, `FmathTrig2`, `FmathTan`, `FmathHyp`, `FmathSqrt`, `FmathCbrt`, `FmathErfRef`, `FmathErf`, `FmathPow`, `FmathIerfRef`, `FmathIerf` | `FmathExpProps`, `FmathTrigProps`, `FmathHypProps`, `FmathRootProps`, `FmathErfProps`, `FmathPowProps`, `FmathIerfProps` |
| Ryu printing | `Ryu*Model` | `RyuMul`, `RyuCvt`, `RyuFmt`, `RyuText`, ... | `Ryu*Props` |
| Ryu parsing | `RyuParseModel` | `RyuConv`, `RyuScan`, `RyuParse` | `RyuParseProps` |

In the elementary functions an `int` conversion of an out-of-range float is `UB BadArith`, every float operation is
one correctly rounded binary32 operation (no extended precision, no contraction to fused multiply-add), and a
literal is the double/float nearest to its decimal text.

In fast_float, `FLT_EVAL_METHOD` is 0 or 1 and the rounding mode is to nearest.  `simple_decimal_conversion.h` is included
nowhere and names a struct, two constants and a function that do not exist: the struct is modelled by the fields used,
the constants are parameters, `parse_long_mantissa` is not modelled.  `parse_number.h` assigns `std::errc`
values to a `nanostl::errc` member, which does not type-check unless the two are the same type; the model reads
it as setting the error code (`None` in `outcome` is `invalid_argument`).  A failing `FASTFLOAT_ASSERT` is `UB`.

Not modelled of tuple: `noexcept`, braced lists as arguments (`TcModel` has the constructors).
`tie` with `ignore` does not compile, because `ignore` is const and its `operator=` is not.

Not modelled of the type traits: those that only forward to a compiler intrinsic and is_abstract.  Where a trait asks whether an expression of class type
compiles, the answer is an arbitrary function of the class.

## Trusted base

* Coq 8.16.1 kernel (and `coqchk`).
* `Print Assumptions` output printed under each theorem.  Files that use Flocq rest on the standard library's
  classical real-number axioms (`ClassicalDedekindReals.sig_forall_dec`, `sig_not_dec`,
  `functional_extensionality_dep`, `Classical_Prop.classic`); the others are closed under the global context.
  The theorems on elementary functions (`Fmath*`) use the `interval` tactic and additionally rest on the standard
  library's primitive 63-bit integers and floats: the constants `PrimInt63.*`, `PrimFloat.*` and their
  specifications `Uint63.*_spec`, `FloatAxioms.*_spec` (all under `Coq.Numbers.Cyclic.Int63` and `Coq.Floats`).
* The transcription of C++ into Gallina.  Not modelled: compilers, allocation failure, exceptions and `T` with
  throwing or non-trivial copy operations (elements are opaque values) outside the area of `LifeModel`; there,
  destructors of elements do not throw, and `nanostl::swap`, which the library declares and never defines, is the
  element type's own swap, the OS threads, mutexes and condition variables under `libs_thread.h` (taken to behave as
  POSIX says; `SignalModel` and `MtxModel` state how),
  CUDA/OpenCL qualifiers, and the bundled third-party headers that the library does not call.
