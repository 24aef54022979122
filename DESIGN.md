# Formal model of the NTT library: design

The subject is the C code in `/repo/src` (naive, default and Longa-Naehrig
number theoretic transforms for Q = 12289, the polynomial products built on
them, the table generators, the bound/interval analysis programs) and the
reduction transformer of `/repo/verifier`.

## Trusted base

* The Coq 8.16.1 kernel (and `vm_compute`).
* What `Print Assumptions` prints under each property theorem.  The target is
  "Closed under the global context" everywhere.
* The transcription of C into Gallina described below.

## How C is modelled

* Every C function is a Gallina function returning `res A`, which is either
  `Ok a` or `Err e`.  `e` distinguishes out-of-bounds access, signed overflow,
  failed assertion, division by zero and fuel exhaustion.  Undefined behaviour
  is therefore never assumed away: a theorem that concludes `f ... = Ok r`
  says that the run has no undefined behaviour.
* Integers are `Z`.  Every signed 32-bit or 64-bit operation is checked against
  its range; every unsigned operation wraps explicitly (`u32`, `u64`);
  conversions to a narrower signed type wrap (the behaviour gcc and clang
  document); `>>` on negative values is arithmetic (same remark); `%` and `/`
  truncate toward zero as in C99.
* An array is a list of `Z`; reads and writes outside the list are errors.
  Product functions run on a heap (a map from array names to lists) so that
  aliased arguments are expressible.
* Loops are `cfor`/`cwhile` with fuel; running out of fuel is an error, so
  termination is part of each theorem.
* Assertions are modelled as executed (`Err AssertFail`), even though the
  Makefile compiles `src` with `-DNDEBUG`.  A theorem that concludes `Ok` covers
  both build modes.

## How the assembly is modelled

* A 256-bit register is eight signed 32-bit lanes; 64-bit lanes are pairs of
  these.  Each AVX2 instruction used by ntt_asm.S is a Gallina function
  (`AvxSem`), written from the instruction's definition.
* Pointers are byte offsets into the array they start from.  A vector load or
  store is an error unless all its elements are inside the array and the offset
  is a whole number of elements.
* Assumed about the calling context: the upper half of `rsi` is zero (`n` is a
  uint32_t that the code uses as a 64-bit register), addresses do not wrap
  around 2^64, and flags are as the `cmp`/`sub`/`dec` just before the jump sets
  them.  Array accesses are `vmovdqu`
  (no alignment needed); the aligned loads are of constants of this file.
* Loops are `cdowhile`: like the code, they test at the end.

## How traces are modelled

* `TraceSem` gives the names of `CSem` a second meaning: a run also yields the
  list of its array accesses (array, index, read or write) and of the outcomes
  of all branch and loop tests.  The files `TraceNtt TraceRed TraceNaive
  TraceProducts TraceAvxSem TraceAvx TraceAvxProd` repeat the text of the model
  files with this meaning; each theorem also states that forgetting the trace
  gives the function of the model file.
* Every `if`, `? :` and loop test of the source is recorded, assertions are not
  (they are compiled out).  A compiler may turn a recorded branch into a
  conditional move, so C55 is about the source; it may also introduce branches,
  so C52 and C54 are about the source too.  C53 is about the instructions.
* The time of an instruction (`%` in the naive version) is not in the trace.

## Files (rocq/theories)

Every property theorem is in a `Prop*.v` file that contains nothing else: the
statement, a one-line `exact`, `Print Assumptions`, and a concrete `Example`
meeting the hypotheses.  The model files contain no proofs.

* Semantics and specifications: `CSem` (C semantics), `Spec` (sums, NTT, bit
  reversal, negacyclic product, the mathematical reductions), `TableSpec`
  (contracts of the tables), `SpecInterval` (membership in an interval), `SpecRing`
  (the words in which the ring laws are stated), `SpecExact` (integer polynomials as
  residues), `SpecC` (a reader for C
  declarations), `SpecFiles` (what the generated files should say),
  `SpecRoots` (reading a list of numbers, primitive roots), `SpecNotes` (the
  definitions and sequences of notes.txt), `SpecRedBoundsTxt` (the tables of red-bounds.txt).
* Model: `ModelNtt` (ntt.c), `ModelNaive` (naive_ntt.c), `ModelRed`
  (ntt_red.c), `ModelGen` (make_tables.c, make_red_tables.c,
  make_bitrev_table.c), `ModelProducts` (ntt*.c, naive_ntt*.c, ntt_red*.c),
  `ModelBounds` (red_bounds.c and the `red` case of ntt_intervals.cpp),
  `ModelInterval` (intervals.c, ntt_red_interval.c), `ModelSort` (sort.c),
  `AvxSem` (the AVX2 instructions that ntt_asm.S uses), `ModelAvx`
  (ntt_asm.S, one `let` per instruction), `ModelAvxProd` (ntt_red_asm*.c) and
  `ModelCpu` (avx2_supported); `ModelText` (the text the generators print);
  `ModelHarness` (the harnesses of verifier/vstte20-benchmarks with their copy of
  ntt_red.c, and the programs of src/tests_in_paper); `ModelTests` (the test
  programs test_ntt{N}.c, test_naive_ntt{N}.c, test_ntt_red{N}.c and
  test_ntt_red_asm{N}.c), `ModelTestMod` (test_mod.c), `ModelTestRed`
  (test_red.c), `ModelSpeed` (speed_mul1024.c, speed_mul1024_naive.c,
  speed_mul1024_red.c and speed_mul1024_red_asm.c), `ModelTestAvx` (test_avx.c),
  `ModelKat` (kat_mul1024.c, kat_mul1024_red.c, kat_mul1024_red_asm.c and build_kat),
  `ModelTestNttRed` (test_ntt_red.c), `ModelTestNtt` (test_ntt.c),
  `ModelTestNttAvx` (test_ntt_avx.c),
  `ModelTestRedBounds` (test_red_bounds.c and test_shift.c), `ModelHalves` (the halves
  of the products, as sequences of calls), `ModelCyclic` and `ModelCyclicRed` (products modulo X^n - 1) and
  `ModelTestTables` (the tables of
  test_bitrev_tables.c, test_ntt_red_tables.c and test_ntt_tables.c).
* Loop rules and algebra: `Loops`, `Stages`, `OuterLoops` (the four loop
  shapes of the transforms, generic in the butterfly), `ModQ`, `Fermat`,
  `Tower`, `TransformGen`, `Forms`, `Conv`, `HeapElem`.
* Proofs by area: `RedElem RedBfly RedTransforms RedRange`, `NttElem
  NttTransforms`, `NaiveElem NaiveTransforms`, `ProdGen ProdNtt ProdNaive
  ProdRed RoundTrip`, `GenElem GenTables GenMain`, `Shuffle CommittedTables`,
  `BoundsElem BoundsRound BoundsNtt`, `IntervalElem IntervalLoops
  IntervalSound IntervalTotal IntervalRuns`, `SortElem`, `AvxElem AvxArrays PcLoops AvxRound
  AvxBlocks AvxExec AvxCtR2s AvxCtS2r AvxGsR2s AvxGsS2r AvxProd
  FineBounds AvxProd1024`, `TraceElem TraceC TraceAvxP TraceProd`,
  `RingElem`, `TextElem`, `RootsElem`, `NotesElem`, `HeadersElem`,
  `HarnessElem PaperElem`, `TestsElem TestsRun TestsSound`, `IdealRed IdealProd Repeat`, `FineGen FineRuns`, `RedBoundsTxtElem`.
* `*Final` collect the lemmas the `Prop*` files point at.  `Exlib`, `FastArr`
  and `ExTables` only serve the concrete examples.

## Per property: what is modelled, how it is proved

| id | what is modelled | how it is proved |
|----|------------------|------------------|
| C01-C03, C05 | element functions and array loops of ntt_red.c | interval arithmetic with `Z.div`/`mod`; loop rule for in-place maps |
| C04 | normalize, normalize_inv3 | truncated remainder lemmas |
| C06, C07 | mul_red with int64 product, int32 conversion | arithmetic; the documented upper end is refuted by a witness and by a general statement |
| C08, C09 | divq/modq with uint64 wrap | bounds on K*Q-2^k |
| C10 | add_mod, sub_mod | case split on the sign |
| C11-C14 | the nine transforms of ntt.c | one loop theorem per loop shape (4 shapes), generic in the butterfly; algebra through "towers" of evaluation points modulo Q |
| C15 | the eight naive transforms, with q = 12289 | same loop theorems, other butterfly |
| C16, C17 | the eight ntt_red transforms | same loop theorems with interval invariants per round |
| C18 | GS transforms at n = 2048 | `_refuted`, witness evaluated by `vm_compute` |
| C19 | pairs of transforms | orthogonality of the powers of omega |
| C20-C25 | product functions on a heap, tables from the modelled generators | convolution theorem + orthogonality; alias counterexample by `vm_compute` |
| C26, C27 | bitrev_shuffle, shuffle_with_table, make_bitrev_table | loop invariants on the reversed counter |
| C28-C31, C41 | generators; C41 runs them from two arbitrary initial memories | loop invariants, extended Euclid invariant, primitive roots through Fermat |
| C32 | `red` case of the interval transformer | case analysis on the block of 4096 |
| C33-C36, C42, C43 | red_bounds.c | as C32 plus a gcd argument; refutations by witness |
| C37, C38, C44 | intervals.c, ntt_red_interval.c; the printed text is modelled as the list of displayed rows | abstraction relation carried through the loop shapes |
| C39 | sort.c with its recursion (the depth of the C stack is not modelled) | partition invariant, strong induction on the length |
| C45-C47 | the array routines of ntt_asm.S | lane-wise evaluation of each loop body, one store lemma per vector store |
| C48 | the eight transforms of ntt_asm.S | symbolic execution of one loop iteration, each round compared with the round of the C code that does the same butterflies; for arbitrary contents: comparison with one run that succeeds (FrameShape.v: arrays of equal length, any registers) |
| C49 | the same | C48 and C16 |
| C50 | products of ntt_red_asm*.c (not product 1 of size 1024) | C48, C46 and the proof of C23 |
| C51 | ntt_red1024_product1_asm | as C50, with one bound per array block computed from the values of the table (`FineBounds`) |
| C52, C53 | all functions of ntt.c, ntt_red.c, naive_ntt.c and ntt_asm.S, with traces | relational rules (two runs, same trace), applied along the text |
| C54 | all products, with traces | C52, C53 and termination without error from C20-C23, C50, C51 |
| C55 | normalize, normalize_inv3, shift_array, products that shift | `_refuted`, two runs evaluated |
| C56 | the products of C20, C21, C23, C50, C51 | associativity, distributivity etc. of the negacyclic product, proved on sums; canonical representatives make the stored arrays equal |
| C57 | avx2_supported, instruction by instruction; what CPUID and XGETBV return is a parameter | case split on the masks |
| C58 | the fprintf calls of the three generators, as text; `SpecC` is an independent reader of C declarations | the lexer run piece by piece over the text; decimal printing and reading are inverse; loop invariants for the rows |
| C59 | committed files transcribed as strings | byte equality by `vm_compute`; the reader evaluated on ntt32_tables.{h,c} |
| C60 | files transcribed as strings, read by `numbers` (SpecRoots) | each listed value is checked to be a root of -1 (`vm_compute`); all such roots are odd powers of one of them, so sorted and as many means all; acceptance by C30 |
| C61 | the definitions of src/notes.txt for any k, m (`redkm`, SpecNotes); for k = 3, m = 12 this is `ln_red`, which C07 relates to the code | 2^m red(x) + x = q r, then linear arithmetic |
| C62 | the listed sequences, transcribed by script (SpecNotes) | constants near the ends of the range are checked operand by operand until no later one can matter (`scan1`, by `vm_compute`), all others by C61; the transforms by the invariant of C35 |
| C63 | the twelve transforms that each header declares (ntt, naive_ntt, ntt_red, ntt_red_asm), with the tables of the generator; the headers of the four sizes differ only in the size | C11-C17 and C48 with the tables of C28-C31; any inverse of psi gives the same values, since inverses modulo Q are unique; AVX2: equal to the C wrapper |
| C64 | the abstract_ functions on arrays of intervals and the eight abstract transforms with numeric constants, as in C37, C38 and C44 | loop rules that also give a result (IntervalTotal.v); the bounds after c rounds stay below an explicit sequence (IntervalRuns.v), so that no operation on 64-bit bounds overflows; then C38 applies |
| C65 | the eight harnesses of verifier/vstte20-benchmarks, with the arbitrary values of int_nd as a function of the call number, clam_assume as discarding the run, clam_assert as an assertion; the four transforms and mul_red of the copy of ntt_red.c there, with the macros SAFE and USE_CRAB_INTRINSICS as parameters; the generator is the one of src (the copy lacks the two tables added later) | with SAFE, the copy gives the result of the library transform whenever that succeeds (HarnessElem.v); C17 for the transforms; a wrong alternative bound by the first rounds on a concrete input |
| C66 | the eight programs of src/tests_in_paper; the array of pointers starts empty | six of them: C64 with the generated tables, whose entries are invertible modulo Q and so not zero; the two with intervals of constants: one chain of array positions is followed through the ten rounds, once in the abstract run and once in a concrete run that leaves it (PaperElem.v, PaperFinal.v) |
| C67 | the sixteen test programs, which are copies of one program: a record for what differs around the transforms, a record for the functions under test; random(), cpucycles() and the contents of uninitialised local arrays are parameters, exit(1) is an error value; printing is left out | the checks succeed on right results (TestsElem.v); the lemmas behind C63 for the transforms, C20 to C23, C50 and C51 for the products (TestsRun.v); speed tests by invariants, for the assembly because its routines succeed on every array; the overflow for n = 16 by following the first speed test for twelve calls (TestsFinal.v), for all sizes by C72 (RepeatFinal.v) |
| C68 | the same, with any functions under test and any statements around them | each loop and check is inverted (TestsSound.v) |
| C69 | all of test_mod.c; what is printed is returned; a loop that scans 2^31 values is a recursion on a counter that no proof evaluates | the quotient is right as long as x mod Q times 2^n plus x times the rounding excess stays below Q times 2^n, which is checked at the first failure and holds before it; three induction lemmas about scanning loops (TestModFinal.v) |
| C70 | all of test_red.c except the part under #if 0 | block by block red is 3w - q, so a block overflows outside an interval of q; the binary searches are then evaluated on that test; the loops of main are followed from one report to the next; the bounds by arithmetic on quotients (TestRedFinal.v) |
| C71 | the transforms and products of C11-C17 and C23 | the loops with unbounded integers compute the transform of every array (the butterflies of C11-C17 without bounds); the C code follows them as long as no checked operation fails, and fails with one of the two errors otherwise (IdealRed.v, IdealProd.v); after the pointwise product the values are int32_t, and from there C23 applies |
| C72 | ntt_red_ct_rev2std | explicit values after each round (Repeat.v): entry 0 meets only additions, and the two outputs of a butterfly add up to twice its first input |
| C73 | the four speed_mul1024 programs, which are copies of one program (the five products are parameters); the products of C23 | bounds that follow the entries of the tables of size 1024 (FineGen.v: by block for the Cooley-Tukey shape, by offset in a block for the Gentleman-Sande shape), evaluated for the start 300000; the results of the products come from C71; the loops as in C67 |
| C74 | all of test_avx.c; random(), cpucycles(), the contents of uninitialised local arrays and the number of rounds allowed to the loop that draws 16-bit pairs are parameters; the product `2 * n` on line 129 is a parameter as well, which is the checked 32-bit product for the program as it is; printing is left out, exit(1) is an error value | evaluation up to the first call of random_coeff |
| C75 | the comparisons of test_avx.c with line 129 in 64 bits (stated for the repaired line since by C74 nothing of the program as it is is defined) | the draws are explicit functions of the stream; the C and assembly functions agree by C45 to C47; outside the range of mul_red the C function fails an assertion or overflows (TestAvxElem.v, TestAvxRuns.v) |
| C76 | the generators and the speed tests of test_avx.c with line 129 in 64 bits | as C75; for the speed tests, ranges that each function maps to itself (for `correct`, bits 28 and 29 keep entries near 2^30) |
| C77 | main, test_mul_from_KAT_values and build_kat of the three kat programs; the data arrays are parameters | the loops end in the claimed verdict or exit; products by C20, C23, C50 and C51, lengths of the overwritten arguments as in C73 (KatFinal.v) |
| C78 | the eight ntt_red transforms | the loop theorems of C16 and C17 with intervals that are not centred: after the first round the multiplied differences dominate and the width W becomes 3*W + 12285 (Gs2048Final.v) |
| C79 | test_simple_polys and the two shapes of wrapper of test_ntt_red.c; printing is left out, exit(1) is an error value | for any table each transform is linear modulo Q (LinRed.v: the loop theorems with the coefficient of each input as invariant), so that it is determined by its values on the powers of X, which the test checks (BasisElem.v) |
| C80 | all of test_ntt_red.c except the code under `#if 0`; the tables are transcribed; cpucycles() and the contents of local arrays are parameters | the tables by one pass over each of them (TabCheck.v), the tests by C79 and C16/C17, the overflow by evaluating twelve calls |
| C81 | the nine forward transforms of ntt.c, mul_array16, bitrev_shuffle, the eight transforms of ntt_red.c | as C79: the loop theorems with the coefficient of each input as invariant (LinRed.v, LinNtt.v); `assembled` (TestNttElem.v) is the class of compositions |
| C82 | test_simple_polys (its text is that of test_ntt_red.c) and cross_check; printing is left out, exit(1) is an error value | a linear function is determined by its values on the powers of X (BasisElem.v, TestNttElem.v).  The comparison of f(f(x)) with g(g(x)) in cross_check adds nothing |
| C83 | all of test_ntt.c: the 78 functions tested, and main; cpucycles() and the contents of local arrays are parameters | the specifications of C11-C14, and of the combined transforms with tables of powers of omega (TestNttRight.v), with the tables of C80, then C82; in the measurements arrays stay canonical by C81 |
| C84 | all of test_ntt_avx.c except the code under `#if 0`; random(), cpucycles() and the contents of local arrays are parameters; printing is left out, exit(1) is an error value | bounds that follow the entries of each of the 24 tables (FineAll.v, FineTabs.v, as in C73), evaluated for the start 200000; with them C48 gives equality; no transform calls exit (Calm.v); the overflow by evaluating seven calls; that nothing worse can happen follows from C88 and C89, which bound what the transforms do on arbitrary contents (TestNttAvxOut.v) |
| C85 | all of test_red_bounds.c, including the tests under `if (false)`; the numbers printed are the result of main; the contents of the array bound are a parameter | exactness of each function of red_bounds.c (C33-C36) and an invariant of the iterations; the case low = 0 of min_red_mul_interval, which C36 excludes, for the interval 0..12288 that is used; the slow checks: each loop returns Ok exactly if its test holds for every value (cfor_decides); for the tables estimates from above (largest constant of each row) and below (a value of x - y for each round) of the exact bounds, evaluated |
| C86 | all of test_shift.c; right shifts are arithmetic | invariant of the loop |
| C87 | all functions of ntt.c, naive_ntt.c, ntt_red.c, ntt_asm.S and the products of the four implementations | relational rules (the second run has longer arrays), applied along the text (FrameElem.v, FrameC.v, FrameAvx.v, FrameProd.v) |
| C88 | the functions of C66-C68 with tables as parameters; for asm the entries by which the assembly code does not multiply are taken to be right; red1024_product1_asm is left out | every function is linear (transforms) or bilinear (products) modulo Q with ranges, for any tables in range, hence determined by the powers of X, which the tests try (C68); omega^(n/2) = -1 follows from the second application being n times the identity, i.e. from sums of powers (TestsLin.v, TestsAll.v, LinNaive.v, TestsAllNaive.v, TestsAllRed.v, TestsAllAsm.v) |
| C89 | all functions of ntt.c, naive_ntt.c, ntt_red.c, the products of the four implementations | rules for outcomes restricted to kinds of failures, with a measure for the loops; one lemma per loop shape, for any butterflies (SafeC.v), applied to every function (SafeFinal.v); the AVX2 routines themselves are in C48/C87 (asm_in_bounds) |
| C90 | the forward and inverse halves of the products of the four implementations (ModelHalves.v; sequences of public functions, already modelled) | the transform of a sum of negacyclic products is the sum of products of transforms (Accum.v); every inverse half, applied to the product of the transforms of that sum and of the polynomial 1, returns the sum (AccumFinal.v). The additions of a caller are not modelled: d is any array congruent to the sum. The halves of ntt_red1024_product1_asm (C51), which skip reductions, are not included |
| C91 | a procedure a caller would write with public functions (ModelCyclic.v); the library has none | C63 for the transforms; a product modulo X^n - 1 is a product modulo X^n + 1 of arrays multiplied by the powers of the inverse of psi (Cyclic.v).  For Longa-Naehrig see C96 |
| C92 | the halves of C90 | every array is the transform of an explicit polynomial (interpolation, Divide.v, from the orthogonality of the powers of omega), so that an inverse half, known to be right on products of transforms, is right on every array (DivideFinal.v) |
| C93 | the halves of C90; the division of residues by the caller is not modelled: any d with A[i]*d[i] congruent to C[i] is admitted | interpolation as in C92; residues other than 0 have inverses (Fermat.v); the transform is injective (Divide.v) |
| C94 | the product procedures of C56 and the naive ones; the encoding of integers as residues and the decoding are specification (SpecExact.v), a caller does them | C56's lemma that every procedure leaves the canonical product (for the naive ones C21's); bounds on sums; splitting the sum where indices come around (ExactFinal.v) |
| C95 | as C77, with any five functions; what is assumed of them is `puts` (SpecKat.v): defined on canonical arrays, lengths kept, a result that depends on the arguments only | the loops of main end in success or exit according to the rows compared so far (KatAny.v) |
| C96 | a procedure a caller would write (ModelCyclicRed.v): the steps of product5 with plain transforms | the steps proved for C23 and C50; bounds after a plain inverse transform tight enough for the multiplication by rescale8 (CyclicRed.v); then as C91 |
| C97 | the sequences of red-bounds.txt, transcribed by script (SpecRedBoundsTxt), and the tables | each number checked as in C62 (`scan_w`) for the few constants of the row that could exceed it, and attained at a given operand (certs); the functions of red_bounds.c return the least bounds (C35), hence the same numbers; the transforms by C35 |
| C40 | committed tables transcribed as data | `vm_compute` equality with the modelled generator |

## Findings

These are places where the code or its documentation does not do what is said.
Each has a theorem.

* C07: ntt_red.h gives an upper end for the products accepted by
  `mul_reduce_array*` that is too large; from 2^43 on the conversion overflows.
* C18: the Gentleman-Sande transforms overflow at n = 2048 for inputs allowed by
  the documented precondition.
* C22: the naive products can return negative coefficients.
* C25: calling a product with the same array for `a` and `b` gives a wrong
  result.
* C31: `inverse(x, 1)` fails its assertion although gcd(x, 1) = 1.
* C36, C37: `min/max_red_mul_interval` and `red_mul` are wrong on intervals
  whose lower end is below minus the upper end.  The overflow checks of the interval `add64`/`sub64` come after
  the overflow (undefined behaviour).
* C38: no warning does not imply no overflow; the `abstract2_*` transforms
  inherit the unsoundness of `red_mul`.
* C42: the constant 0 makes `gcd4096`/`lmin` divide by zero.
* C43: an assertion fails when 0 is an end of the interval of constants.
* C44: `abstract_mul_reduce_array` is unsound.
* C46: `correct_asm` and `correct` differ from 2^16 on (outside the documented
  range).
* C47: `shift_array_asm` needs `n` to be a positive multiple of 16; ntt_asm.h
  does not say so.
* C48: the plain AVX2 transforms read table entries (unit factors) that the C
  transforms never read; with other values there the two differ.
* C51: the comment `-130 <= c[i] <= 12413` in `ntt_red1024_product1_asm` is left
  over from a reduction that is commented out; the values of c are larger, but
  the procedure is still right.
* C55: `shift_array`, `normalize` and `normalize_inv3` branch on coefficients,
  so the Longa-Naehrig products of sizes 16, 256 and 512 are not constant-time
  at source level, unlike all others.
* C65: the SAFE assertion of the benchmark copy of `mul_red` admits products from
  2^43 on, where the C code overflows; the intrinsic that replaces the
  computation in the analysis hides this.  The bounds used without SAFE do not
  hold.
* C66: `test_ntt_red1024c` and `test_ntt_red1024d` print intervals that miss
  reachable values, because of `red_mul` (C36).  Their conclusion that nothing
  overflows is still true (C65, the harnesses of the same names).
* C67: the speed tests of test_ntt_red16.c, test_ntt_red256.c, test_ntt_red512.c and
  test_ntt_red1024.c run into signed overflow or a failed assertion, because they
  call a transform 102400 times on the same array without reducing it (C72).
* C69: test_mod.c overflows a signed integer in the loop at the start of main, and
  the signed tests with shifts of 44 and more overflow as well, so the program
  never finds a shift that works for signed values.  The shifts 41 to 44 that the
  unsigned test calls working are exact on [0, (Q-1)^2] but not on uint32_t.
* C74: test_avx.c computes `2 * 0x40000000` in int, so it is undefined on every
  machine with AVX2.
* C76: with that repaired, test_avx.c still leaves the range of mul_red: the filter
  for scalars is wrong for negative scalars, the filter for products admits 2^43 (as
  in C65), and two speed tests have no filter.
* C78: section 4 of the paper says that safety for arbitrary constants within
  (Q-1)/2 no longer holds at n = 2048.  It does, for all eight transforms, on
  inputs 0..Q-1.
* C80: test_ntt_red.c has signed overflow in its first speed measurement.
* C83: the function `speed_ntt16_v5` of test_ntt.c measures mulntt_ct_rev2std with
  a bit-reversed table, which it does not expect; harmless, since only the time counts.
* C84: the speed measurements of test_ntt_avx.c use random constants in place of the
  tables and do not reduce; for some random numbers the C functions overflow.
* C85: test_red_bounds.c prints "--> overflow" exactly four times: for the
  Gentleman-Sande transforms with n = 2048 and inputs up to 36864.  It prints it from
  INT32_MAX on, although mul_red asserts 12286 less; no bound lies in between.
* Not stated as properties: ntt1024.h declares `ntt1024_product6`, which does
  not exist; the generators print `inv_psi_powers_rev`, which no header
  declares; `logtwo(0)` does not terminate (its callers exclude 0).

## Notes on the checks

* `coqchk` lists seven constants of `Coq.ssr.ssrunder`, from the ssreflect part
  of the standard library that is loaded indirectly.  No theorem uses them:
  `Print Assumptions` is "Closed under the global context" everywhere.
* `seeded/LOG.jsonl` records the mutation tests: one edit of a model
  definition per line.  `lemmas_broken` are the statements whose proof script
  stopped at an error; each was closed by a hole in the scratch copy so that the
  rest could be checked.  `theorems_failed` are the property theorems that then
  depend on a hole.  A failure shows that the proof no longer goes through, not
  by itself that the statement became false; a failing concrete example
  (`examples_failed`) does show it.  `theorems_not_reached` (a file
  could not be checked, or the only broken lemmas were stopped by the time
  limit, see `lemmas_timed_out`) are not counted as failures.
  `rebuilt` says which property files were checked again, when not all were;
  `refuted` says how the claim was shown false by evaluating the edited model,
  where the proof attempt had only been stopped.
  Five entries (resc8, resc6, bt-exp, brt-k, nprod5-table) were first logged
  with theorems of files that had not been reached; three of them had no other
  failure.  They were run again with a corrected harness.
  Two edits turned out not to break their claim: `ctcomb` (an equivalent
  program) and `ver-lb` (which gives a wider but still sound bound; it breaks
  that the bound is attained).

## Not modelled

LLVM/Clam driver code of the verifier (`ntt_verifier.cpp`), `fopen`, `atol` and
the error messages of the generators, the test programs of src other than those of
C66, C67, C69, C70, C74, C77, C80 and C83-C86 (only test_mul1024.c is left), and the values of the 300 arrays
of data_poly1024.c (C77 holds for any values from 0 to Q-1).  test_mul1024.c
includes ntts1024.h, which is not in the repository.
