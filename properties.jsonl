{"id": "C01", "title": "Longa-Naehrig reduction of an array is exact and bounded", "statement": "reduce_array(a,n) terminates without undefined behaviour on every array of 32-bit integers, touches only a[0..n-1], and every new element is congruent to 3 times the old one modulo 12289 and lies in [-524287, 536573].", "quantifier": "every n and every content of the array (all int32 values)", "why_tests_cant": "2^32 inputs per element and every array length; a test samples a few values", "anchors": ["src/ntt_red.c:red", "src/ntt_red.c:reduce_array", "src/ntt_red.h:reduce_array"]}
{"id": "C02", "title": "Double reduction lands in [-130, 12413]", "statement": "reduce_array_twice(a,n) never has undefined behaviour; every new element is congruent to 9 times the old one modulo 12289 and lies in [-130, 12413]; both ends of the interval are attained.", "quantifier": "every n and every content of the array (all int32 values)", "why_tests_cant": "2^32 inputs per element and every array length; a test samples a few values", "anchors": ["src/ntt_red.c:reduce_array_twice", "src/ntt_red.h:reduce_array_twice"]}
{"id": "C03", "title": "correct() returns the canonical residue", "statement": "For an array whose elements are in [-Q, 2Q-1], correct(a,n) replaces each element by its remainder in [0,Q-1]; consequently reduce_array_twice followed by correct maps every int32 x to (9x mod Q).", "quantifier": "every n and all elements in [-Q,2Q-1] (resp. all int32 elements for the composition)", "why_tests_cant": "the branch-free arithmetic must be right on all of 36867 values in every position, and the composition on all 2^32", "anchors": ["src/ntt_red.c:correct"]}
{"id": "C04", "title": "normalize and normalize_inv3 compute canonical residues of every int32", "statement": "normalize replaces every a[i] by a[i] mod Q in [0,Q-1]; normalize_inv3 by the residue r in [0,Q-1] with 3r congruent to a[i]; the assertions in both never fail and no overflow occurs.", "quantifier": "every n and every int32 content", "why_tests_cant": "2^32 inputs per element and every array length; a test samples a few values", "anchors": ["src/ntt_red.c:normalize", "src/ntt_red.c:normalize_inv3"]}
{"id": "C05", "title": "shift_array centres residues", "statement": "For elements in [0,Q-1], shift_array yields the representative in [-6144,6144] of the same residue class.", "quantifier": "every n and all elements in [0,Q-1]", "why_tests_cant": "must hold for every element and every length", "anchors": ["src/ntt_red.c:shift_array"]}
{"id": "C06", "title": "Multiply-and-reduce is exact on its safe product range", "statement": "mul_reduce_array, mul_reduce_array16 and scalar_mul_reduce_array store values congruent to 3*x*y modulo Q without overflow whenever every product lies in [-8796042698752, 2^43-1]; the lower end is tight (one below, the exact result no longer fits in 32 bits); the documented element bounds ([0,12288]^2 -> [-36864,12285], [-6144,6144]^2 -> [-9216,21499]) hold.", "quantifier": "every n, all pairs of int32 operands with product in range", "why_tests_cant": "2^64 operand pairs; the boundary products are never sampled", "anchors": ["src/ntt_red.c:mul_red", "src/ntt_red.c:mul_reduce_array", "src/ntt_red.c:mul_reduce_array16", "src/ntt_red.c:scalar_mul_reduce_array", "src/ntt_red.h"]}
{"id": "C07", "title": "The documented upper end of the safe product range is wrong", "statement": "ntt_red.h documents, and mul_red asserts, that -8796042698752 <= a[i]*b[i] <= 8796093026303 is enough to avoid overflow in mul_reduce_array. This is false: every product from 2^43 = 8796093022208 up to the documented end overflows a signed 32-bit subtraction.", "quantifier": "all pairs of int32 operands with product in the documented range", "why_tests_cant": "only 4096 of 1.7*10^13 products are affected", "anchors": ["src/ntt_red.c:mul_red", "src/ntt_red.h:mul_reduce_array"]}
{"id": "C08", "title": "Division-free modular reduction is exact", "statement": "The array products of the default implementation (mul_array, mul_array16, scalar_mul_array) return exactly (x*y) mod Q in [0,Q-1] for all operands in [0,Q-1] without overflow; the underlying remainder is exact for every integer in [0, 254259408] and wrong at 254259409.", "quantifier": "every n and all operands in [0,Q-1]; all x up to the stated bound", "why_tests_cant": "1.5*10^8 products; the reciprocal-multiplication trick fails only at isolated points past its bound", "anchors": ["src/ntt.c:divq", "src/ntt.c:modq", "src/ntt.c:mul_array16", "src/ntt.c:mul_array", "src/ntt.c:scalar_mul_array"]}
{"id": "C09", "title": "All reciprocal constants listed in the documentation work", "statement": "For each of the five documented pairs (k,K), floor(x*K/2^k) = floor(x/Q) for every x in [0,(Q-1)^2].", "quantifier": "five constants, all x in [0,(Q-1)^2]", "why_tests_cant": "a numeric claim over 1.5*10^8 values per constant, in a comment nothing executes", "anchors": ["src/ntt.c:divq"]}
{"id": "C10", "title": "Modular addition and subtraction are exact", "statement": "For x, y in [0,Q-1] the branch-free modular add and subtract return (x+y) mod Q and (x-y) mod Q without overflow.", "quantifier": "all x,y in [0,Q-1]", "why_tests_cant": "1.5*10^8 pairs", "anchors": ["src/ntt.c:add_mod", "src/ntt.c:sub_mod"]}
{"id": "C11", "title": "Forward transforms, Cooley-Tukey, bit-reversed input", "statement": "For every power of two n, every psi with psi^n = -1 mod Q and every table meeting the documented contract, ntt_ct_rev2std (and the older ntt_ct_rev2std_v1) overwrite a (elements in [0,Q-1], in bit-reversed order) by NTT(a) in standard order, all in [0,Q-1], touching only a[0..n-1] and p[0..n-1], with no overflow.", "quantifier": "every n=2^k, every root psi, every table meeting the contract, every input array", "why_tests_cant": "12289^n inputs, all sizes; tests check a few arrays", "anchors": ["src/ntt.c:ntt_ct_rev2std", "src/ntt.c:ntt_ct_rev2std_v1"]}
{"id": "C12", "title": "Forward transforms, Cooley-Tukey, standard-order input", "statement": "ntt_ct_std2rev overwrites a by NTT(a) in bit-reversed order, all in [0,Q-1], without undefined behaviour, for every table meeting the documented contract.", "quantifier": "every n=2^k, every root psi, every table meeting the contract, every input array", "why_tests_cant": "12289^n inputs, all sizes", "anchors": ["src/ntt.c:ntt_ct_std2rev"]}
{"id": "C13", "title": "Forward transforms, Gentleman-Sande", "statement": "ntt_gs_rev2std and ntt_gs_std2rev compute NTT(a) (standard order, resp. bit-reversed order), all in [0,Q-1], without undefined behaviour.", "quantifier": "every n=2^k, every root psi, every table meeting the contract, every input array", "why_tests_cant": "12289^n inputs, all sizes", "anchors": ["src/ntt.c:ntt_gs_rev2std", "src/ntt.c:ntt_gs_std2rev"]}
{"id": "C14", "title": "Combined transform/psi-multiplication variants", "statement": "mulntt_ct_rev2std and mulntt_ct_std2rev compute NTT of (a[i]*psi^i); nttmul_gs_rev2std and nttmul_gs_std2rev compute NTT(a)[i]*psi^i; all results in [0,Q-1].", "quantifier": "every n=2^k, every root psi, every table meeting the contract, every input array", "why_tests_cant": "12289^n inputs, all sizes", "anchors": ["src/ntt.c:mulntt_ct_rev2std", "src/ntt.c:mulntt_ct_std2rev", "src/ntt.c:nttmul_gs_rev2std", "src/ntt.c:nttmul_gs_std2rev"]}
{"id": "C15", "title": "Naive transforms compute the same transform up to sign of remainder", "statement": "Each of the eight naive transforms yields values congruent modulo Q to the same NTT, with absolute value below Q, without overflow, for every input with |a[i]| < Q.", "quantifier": "every n=2^k, every root psi, every table meeting the contract, every input with |a[i]|<Q", "why_tests_cant": "12289^n inputs, all sizes; intermediate signs depend on data", "anchors": ["src/naive_ntt.c"]}
{"id": "C16", "title": "Longa-Naehrig transforms compute the NTT", "statement": "Each of the eight ntt_red transforms, called with |a[i]| <= 21499 and a table meeting the contract (values in [-6144,6144], congruent to the root powers times inverse(3)), yields values congruent modulo Q to the NTT in the documented order, for every n up to 1024, and up to 4096 for the Cooley-Tukey variants.", "quantifier": "every n=2^k<=1024 (4096 for Cooley-Tukey), every root psi, every table meeting the contract, every input array in range", "why_tests_cant": "43000^n inputs; lazy reduction lets values grow so errors depend on extreme data", "anchors": ["src/ntt_red.c"]}
{"id": "C17", "title": "No overflow in the Longa-Naehrig transforms", "statement": "With |a[i]| <= 21499 and an arbitrary table with |p[i]| <= 6144 none of the eight ntt_red transforms overflows a 32-bit integer, violates an internal assertion or accesses memory outside a[0..n-1], p[0..n-1], for every n up to 1024; for the Cooley-Tukey variants also for n = 2048 and 4096.", "quantifier": "every n=2^k within the limit, every input array and every table within the bounds", "why_tests_cant": "the worst case is an adversarial combination of data and constants; random tests stay orders of magnitude below", "anchors": ["src/ntt_red.c", "src/ntt_red.h", "verifier/vstte20-benchmarks/ntt_red.c"]}
{"id": "C18", "title": "Documented transform precondition is not enough at n=2048 for Gentleman-Sande", "statement": "The documented precondition (|a[i]|<=21499, |p[i]|<=6144) does not guarantee absence of overflow of the four Gentleman-Sande transforms at n=2048: for each of them there is an input and a table within the bounds on which signed 32-bit arithmetic overflows (while n<=1024 is safe, C17).", "quantifier": "every n=2^k<=2048, every input and table within the bounds", "why_tests_cant": "needs the worst-case input and table", "anchors": ["src/ntt_red.c:ntt_red_gs_std2rev", "src/ntt_red.h", "src/README.md"]}
{"id": "C19", "title": "Forward then inverse transform multiplies by n", "statement": "Running a forward transform and then the matching inverse transform (tables of inverse powers) returns n*a[i] mod Q, for each forward/inverse pairing used by the library, so multiplying by inv_n restores the input.", "quantifier": "every n=2^k, every root psi, every input array", "why_tests_cant": "round trip must hold for all arrays, all sizes", "anchors": ["src/ntt.c", "src/ntt1024.c", "src/ntt1024.h"]}
{"id": "C20", "title": "Polynomial products of the default implementation", "statement": "ntt{16,256,512,1024}_product1..5(c,a,b) store in c the product of a and b modulo x^n+1 and Q, each coefficient in [0,Q-1], for all a,b with coefficients in [0,Q-1].", "quantifier": "all coefficient vectors a and b in [0,Q-1]^n for each of the four sizes (and any other size/root accepted by the table generator)", "why_tests_cant": "12289^(2n) input pairs", "anchors": ["src/ntt16.c", "src/ntt256.c", "src/ntt512.c", "src/ntt1024.c"]}
{"id": "C21", "title": "Polynomial products of the naive implementation", "statement": "naive_ntt{16,256,512,1024}_product1..5(c,a,b) store in c values congruent modulo Q to the coefficients of a*b mod x^n+1, with absolute value below Q.", "quantifier": "all coefficient vectors a and b in [0,Q-1]^n for each size", "why_tests_cant": "12289^(2n) input pairs", "anchors": ["src/naive_ntt16.c", "src/naive_ntt256.c", "src/naive_ntt512.c", "src/naive_ntt1024.c"]}
{"id": "C22", "title": "Naive products need not be canonical", "statement": "The naive product functions may return negative coefficients (in (-Q,0)) even when both inputs are in [0,Q-1]: C % keeps the sign of its left operand, so callers must normalise before comparing with the other implementations.", "quantifier": "there are inputs in [0,Q-1]^n for each of the five procedures", "why_tests_cant": "the remainder sign depends on the data at the last step", "anchors": ["src/naive_ntt16.h", "src/naive_ntt1024.h", "src/naive_ntt16.c"]}
{"id": "C23", "title": "Polynomial products of the Longa-Naehrig implementation", "statement": "ntt_red{16,256,512,1024}_product1..5(c,a,b) store in c exactly the product of a and b modulo x^n+1 and Q with coefficients in [0,Q-1], without overflow or failing assertion.", "quantifier": "all coefficient vectors a and b in [0,Q-1]^n for each size", "why_tests_cant": "12289^(2n) input pairs and lazily reduced intermediate values", "anchors": ["src/ntt_red16.c", "src/ntt_red256.c", "src/ntt_red512.c", "src/ntt_red1024.c"]}
{"id": "C24", "title": "The product procedures are interchangeable", "statement": "The five product procedures of the default implementation and the five of the Longa-Naehrig implementation return the same array on the same inputs (README: 'semantically equivalent').", "quantifier": "all pairs of input arrays, all pairs of procedures", "why_tests_cant": "equivalence over 12289^(2n) inputs", "anchors": ["src/README.md", "src/ntt1024.c", "src/ntt_red1024.c"]}
{"id": "C25", "title": "Product procedures: aliasing and frame", "statement": "A product call writes only the three argument arrays; it is correct when c is the same array as a or as b, and not correct in general when a and b are the same array.", "quantifier": "all memory states and all choices of argument pointers", "why_tests_cant": "aliasing is never exercised by the tests", "anchors": ["src/ntt1024.c", "src/ntt_red1024.c"]}
{"id": "C26", "title": "bitrev_shuffle is the bit-reversal permutation", "statement": "For every n=2^k, bitrev_shuffle(a,n) terminates, stays in bounds and moves a[i] to position bitrev_k(i); applying it twice is the identity.", "quantifier": "every n=2^k (k<=31) and every array", "why_tests_cant": "all sizes and contents", "anchors": ["src/ntt.c:bitrev_shuffle", "src/naive_ntt.c:bitrev_shuffle"]}
{"id": "C27", "title": "Table-driven shuffle agrees with the generic shuffle", "statement": "For every size accepted by make_bitrev_table, the generated pair table passed to shuffle_with_table gives the same array as bitrev_shuffle, all indices in range and below 2^16.", "quantifier": "every accepted n and every array", "why_tests_cant": "all sizes and contents", "anchors": ["src/make_bitrev_table.c", "src/ntt.c:shuffle_with_table"]}
{"id": "C28", "title": "make_tables generates tables meeting the contract", "statement": "For every (size, psi) accepted by make_tables, every generated table has n entries in [0,Q-1], entry t+j equal to the documented power (psi_powers[i]=psi^i, omega_powers[t+j]=omega^(n/2t)^j, and so on), and the generator neither overflows, fails an assertion nor reports a bug.", "quantifier": "every accepted parameter pair, every table entry", "why_tests_cant": "the build only exercises four parameter pairs", "anchors": ["src/make_tables.c"]}
{"id": "C29", "title": "make_red_tables generates tables meeting the contract", "statement": "For every accepted (size, psi), every generated signed table entry lies in [-6144,6144] and is congruent to inverse(3) times the documented power; rescale8 = inverse(3)^8*inverse(n), rescale6 = inverse(3)^6*inverse(n).", "quantifier": "every accepted parameter pair, every table entry", "why_tests_cant": "the build only exercises four parameter pairs", "anchors": ["src/make_red_tables.c"]}
{"id": "C30", "title": "Which parameters the generators accept", "statement": "make_tables accepts (size, psi) exactly when size is a power of two at least 2, 1<psi<Q and psi^size = -1 mod Q; then size divides 2048 and psi^2 is a primitive size-th root of unity (so the internal primitive-root assertion holds), and every check terminates.", "quantifier": "every pair of command line integers", "why_tests_cant": "all parameter values; accepted sizes must follow from number theory", "anchors": ["src/make_tables.c:main", "src/make_tables.c:is_primitive_root"]}
{"id": "C31", "title": "Modular inverse and power helpers", "statement": "power(x,k,q) returns x^k mod q for x<q<=65536 (any k), inverse(x,q) returns true with x*inv = 1 mod q and 0<=inv<q exactly when gcd(x,q)=1 (for the generators' range), without overflow or failing assertion.", "quantifier": "all x,k,q in range", "why_tests_cant": "loop invariants over unbounded iteration counts", "anchors": ["src/make_tables.c:power", "src/make_tables.c:inverse", "src/make_tables.c:logtwo", "src/make_tables.c:reverse"]}
{"id": "C32", "title": "Interval transformer for the reduction in the verifier is sound and optimal", "statement": "For every bounded interval [a,b], the interval computed for the reduction intrinsic contains red(x) for all x in [a,b], and both its ends are attained.", "quantifier": "all intervals [a,b] of integers", "why_tests_cant": "all pairs of bounds of arbitrary precision", "anchors": ["verifier/src/ntt_intervals.cpp:intrinsic"]}
{"id": "C33", "title": "max_red / min_red are the exact extrema of the reduction", "statement": "max_red(a,b) and min_red(a,b) return the maximum and minimum of red(x) over a<=x<=b.", "quantifier": "all a<=b of 64-bit integers for which the result does not overflow", "why_tests_cant": "all pairs of bounds", "anchors": ["src/red_bounds.c:max_red", "src/red_bounds.c:min_red"]}
{"id": "C34", "title": "max_red_mul / min_red_mul are the exact extrema of the reduction of w*x", "statement": "For every constant w<>0 and all a<=b, max_red_mul(a,b,w) and min_red_mul(a,b,w) return the maximum and the minimum of red(w*x) over a<=x<=b, and store a point of [a,b] where it is attained.", "quantifier": "all w<>0 with |w|<=2^61 and all a<=b with |w*a|,|w*b|<=2^62", "why_tests_cant": "all triples (a,b,w); exactness needs number theory (gcd with 4096) and the early exits of the searches", "anchors": ["src/red_bounds.c:max_red_mul", "src/red_bounds.c:min_red_mul"]}
{"id": "C35", "title": "Bounds used by the paper's overflow argument are sound", "statement": "ct_bound, gs_bound and their fixed-constant versions return exactly the largest absolute value that a Cooley-Tukey or Gentleman-Sande butterfly can produce from values bounded by b. The bounds that ntt_ct_bounds and ntt_gs_bounds compute for a table hold for every butterfly of every round and are attained by one, and the transforms of ntt_red.c run with that table on any array bounded by b0 neither overflow (when the final bound fits) nor exceed the final bound.", "quantifier": "all bounds and constants within 2^61; for the tables, all n=2^k<=4096, all b0<=2^29, all tables of nonzero constants in -6144..6144, all arrays", "why_tests_cant": "quantifies over all data", "anchors": ["src/red_bounds.c:ct_bound", "src/red_bounds.c:gs_bound", "src/red_bounds.c:ntt_ct_bounds", "src/red_bounds.c:ntt_gs_bounds"]}
{"id": "C36", "title": "Interval multiply-reduce is exact when the range of x is not below minus its upper end, and unsound otherwise", "statement": "max_red_mul_interval and min_red_mul_interval on x in [a,b] and w in [low,high] return the exact extremum of red(w*x), or 0 if the extremum is on the other side of 0, whenever -b <= a; the returned arguments attain the returned value. When a < -b the returned interval may miss every value (x in [-60000000,-55000000], w=1 gives [0,0]).", "quantifier": "all a, b, low, high in range; one interval for the negative part", "why_tests_cant": "the early exits are justified by |x|<=b; they fail only for particular interval shapes", "anchors": ["src/red_bounds.c:max_red_mul_interval", "src/red_bounds.c:min_red_mul_interval", "src/intervals.c:red_mul"]}
{"id": "C37", "title": "Interval operations are sound, except red_mul", "statement": "add, sub, neg, red, red_scale return the smallest interval containing the results for all members of the arguments; red_twice, normal, normal_inv3, shift, correct return an interval containing them. add and sub have undefined behaviour (not the announced exit) when a bound overflows, normal when the width does; neg exits on INT64_MIN. red_mul encloses all products, with ends that are 0 or attained, when the lower end of the wider argument is not below minus its upper end; otherwise it may miss values.", "quantifier": "all intervals with 64-bit bounds and all members; one pair of intervals for the negative part", "why_tests_cant": "quantifies over all members of all intervals", "anchors": ["src/intervals.c", "src/intervals.h"]}
{"id": "C38", "title": "Abstract transforms enclose the concrete runs; absence of warnings does not exclude overflow", "statement": "If an abstract_ transform finishes on intervals enclosing the input and all bounds it prints stay within 2^31-12286 in absolute value (and, for Gentleman-Sande, those before the last row below 2^30), every concrete run from an enclosed input is free of overflow and ends in the final intervals. Finishing without a warning is not enough: for each of the eight transforms there is a run without warnings whose concrete counterpart overflows. The abstract2_ versions may return intervals that miss the concrete result.", "quantifier": "all n=2^k<=2^31, all tables of int16, all interval arrays and all arrays they enclose; one input per transform for the negative parts", "why_tests_cant": "quantifies over all concrete runs", "anchors": ["src/ntt_red_interval.c", "src/ntt_red_interval.h"]}
{"id": "C39", "title": "sort() sorts", "statement": "sort(a,n) terminates within bounds and rearranges a[0..n-1] into non-decreasing order.", "quantifier": "every n and every array of uint64", "why_tests_cant": "adversarial arrays drive the pivot choice and the unguarded inner scans", "anchors": ["src/sort.c"]}
{"id": "C40", "title": "Committed tables are what the generators produce", "statement": "The committed bit-reversal tables for 16, 256, 512 and 1024 and the committed ntt32 tables equal the generators' output for their parameters.", "quantifier": "all entries of all committed tables", "why_tests_cant": "tables are data; nothing in the build compares them with the generator", "anchors": ["src/bitrev16_table.c", "src/bitrev256_table.c", "src/bitrev512_table.c", "src/bitrev1024_table.c", "src/ntt32_tables.c"]}
{"id": "C41", "title": "Generated tables do not depend on uninitialised memory", "statement": "The outcome of make_tables and make_red_tables (tables written, or the reason for rejecting the arguments) is the same whatever malloc returns in the table buffer.", "quantifier": "all sizes, all psi, all contents of the allocated buffer", "why_tests_cant": "the contents of fresh memory cannot be controlled or enumerated by a test", "anchors": ["src/make_tables.c:print_tables", "src/make_red_tables.c:print_tables", "src/make_tables.c:build_table"]}
{"id": "C42", "title": "The multiply-reduce bounds have no result for the constant 0", "statement": "max_red_mul(a,b,0) shifts a power of two out of the 64-bit range and min_red_mul(a,b,0) divides by zero, for every a<=b.", "quantifier": "all a<=b in int64", "why_tests_cant": "undefined behaviour: the outcome of a run says nothing", "anchors": ["src/red_bounds.c:gcd4096", "src/red_bounds.c:lmin"]}
{"id": "C43", "title": "min_red_mul_interval aborts when 0 is an end of the interval of constants", "statement": "With assertions enabled, min_red_mul_interval(-b,b,0,1), min_red_mul_interval(-b,b,-1,0) and ct_bound(b,0,1) fail an assertion for some b although max_red_mul_interval accepts the same arguments.", "quantifier": "one b", "why_tests_cant": "the shipped build disables assertions", "anchors": ["src/red_bounds.c:min_red_mul_interval"]}
{"id": "C44", "title": "Abstract array operations enclose the concrete ones", "statement": "abstract_normalize, _normalize_inv3, _shift_array, _reduce_array, _reduce_array_twice, _correct map intervals enclosing an int32 array to intervals enclosing the result of the concrete function, which then has no undefined behaviour; so do abstract_mul_reduce_array16 and abstract_scalar_mul_reduce_array if the resulting bounds stay within 2^31-12286. abstract_mul_reduce_array may miss the result.", "quantifier": "all array lengths below 2^32, all interval arrays, all enclosed arrays", "why_tests_cant": "quantifies over all members of all intervals", "anchors": ["src/ntt_red_interval.c:abstract_normalize", "src/ntt_red_interval.c:abstract_correct", "src/ntt_red_interval.c:abstract_mul_reduce_array16", "src/ntt_red_interval.c:abstract_mul_reduce_array"]}
{"id": "C45", "title": "AVX2 array functions meet the documented contracts", "statement": "reduce_array_asm, reduce_array_twice_asm, correct_asm, shift_array_asm, mul_reduce_array16_asm, mul_reduce_array_asm and scalar_mul_reduce_array_asm access only the arrays they are given and return the values and bounds documented for them; mul_reduce_array_asm does so whatever the aliasing of its three arrays.", "quantifier": "all n that are positive multiples of 16 below 2^32, all arrays with elements in the documented ranges", "why_tests_cant": "all 32-bit values in every lane", "anchors": ["src/ntt_asm.S", "src/ntt_asm.h"]}
{"id": "C46", "title": "AVX2 array functions equal the C functions bit for bit", "statement": "Whenever the C function returns normally, its AVX2 version returns the same array: for every int32 array for reduce, reduce_twice, shift and the multiply-reduce functions; for elements in [-2^16,2^16) for correct, and not beyond.", "quantifier": "all n that are positive multiples of 16, all int32 arrays, all int16 tables", "why_tests_cant": "all 32-bit values in every lane; the range where correct agrees ends exactly at 2^16", "anchors": ["src/ntt_asm.S", "src/ntt_red.c"]}
{"id": "C47", "title": "shift_array_asm needs a size that is a positive multiple of 16", "statement": "ntt_asm.h gives no condition on n for shift_array_asm, but for n=8 it accesses memory outside the array and for n=0 it modifies sixteen elements; shift_array handles both.", "quantifier": "one array per case", "why_tests_cant": "out-of-bounds access: the outcome of a run says nothing", "anchors": ["src/ntt_asm.S:shift_array_asm", "src/ntt_asm.h:33"]}
{"id": "C48", "title": "AVX2 transforms equal the C transforms bit for bit", "statement": "Whenever a C transform of ntt_red.c returns normally, its AVX2 version (ntt_red_{ct,gs}_{rev2std,std2rev}_asm, mulntt_red_ct_*_asm, nttmul_red_gs_*_asm) returns the same array, and for every content of the two arrays (any values, any table) it returns a result and reads and writes only the first n elements of each. The four plain transforms need the table entries 1, 2, 4, ... to be inverse(3) = -4096 because the AVX2 code reads some of them and the C code does not.", "quantifier": "all n = 2^k with 4 <= k <= 31, all arrays; equality: all int16 tables; in bounds: all tables", "why_tests_cant": "all 32-bit values in every lane, all sizes; out-of-bounds accesses do not show in results", "anchors": ["src/ntt_asm.S", "src/ntt_asm.h", "src/ntt_red.c"]}
{"id": "C49", "title": "AVX2 transforms compute the number-theoretic transform", "statement": "On inputs within the bounds documented for the C versions, the eight AVX2 transforms return int32 values congruent to the transform they are named for (standard or bit-reversed order, with or without the multiplication by psi powers).", "quantifier": "all n = 2^k with 4 <= k <= 10, all primitive roots, all tables congruent to the documented powers, all inputs in range", "why_tests_cant": "all inputs, all roots", "anchors": ["src/ntt_asm.S", "src/ntt_asm.h"]}
{"id": "C50", "title": "AVX2 product procedures compute the negacyclic product", "statement": "ntt_red{16,256,512}_product1..5_asm and ntt_red1024_product2..5_asm put in c the canonical coefficients of a*b mod x^n+1, write nothing but a, b, c, and leave in c exactly what the C procedure of the same number leaves.", "quantifier": "all tables the generator writes for 16 <= n <= 1024, all canonical a and b, c distinct from or equal to a or b", "why_tests_cant": "all pairs of polynomials", "anchors": ["src/ntt_red_asm16.c", "src/ntt_red_asm256.c", "src/ntt_red_asm512.c", "src/ntt_red_asm1024.c", "src/ntt_asm.S"]}
{"id": "C51", "title": "ntt_red1024_product1_asm is correct without the intermediate reduction", "statement": "ntt_red1024_product1_asm omits the shift and the reduction of c before the inverse transform (and uses the other table of scaled powers). It still puts in c the canonical coefficients of a*b mod x^1024+1: no intermediate value overflows, although bounds that do not look at the table would not exclude it.", "quantifier": "all canonical a and b of size 1024, the tables generated for psi = 1014, c distinct from or equal to a or b", "why_tests_cant": "an overflow would need particular inputs among 12289^2048", "anchors": ["src/ntt_red_asm1024.c:ntt_red1024_product1_asm", "src/ntt_asm.S"]}
{"id": "C52", "title": "C transforms and array functions have data-independent traces", "statement": "For the functions of ntt.c, ntt_red.c and naive_ntt.c (except normalize, normalize_inv3 and shift_array), the sequence of array accesses (array, index, load or store) and of branch outcomes depends only on the size n (and, for shuffle_with_table, on the public index table): not on the coefficients, the scalar or the values of the power tables.", "quantifier": "all sizes, all pairs of inputs on which the function runs without undefined behaviour", "why_tests_cant": "the property compares all pairs of inputs", "anchors": ["src/ntt.c", "src/ntt_red.c", "src/naive_ntt.c"]}
{"id": "C53", "title": "AVX2 routines have data-independent traces", "statement": "The routines of ntt_asm.S access memory and branch in a way that depends only on n: two runs with the same n have the same trace whatever the array, the table and the scalar contain. For arrays of at least n elements and the sizes of the contracts this holds without any condition on the contents.", "quantifier": "all sizes, all pairs of inputs on which the routine stays inside its arrays (which is all inputs, for n = 2^k >= 16 and, for the array functions, positive multiples of 16)", "why_tests_cant": "the property compares all pairs of inputs", "anchors": ["src/ntt_asm.S"]}
{"id": "C54", "title": "Product procedures run with one fixed trace", "statement": "For given tables of the generator and given arrays c, a, b there is one trace that the product procedure produces for all canonical coefficients: default and naive products, Longa-Naehrig products without initial shift (size 1024), and all AVX2 products.", "quantifier": "all generated tables, all canonical a and b", "why_tests_cant": "all pairs of polynomials", "anchors": ["src/ntt16.c", "src/ntt256.c", "src/ntt512.c", "src/ntt1024.c", "src/naive_ntt16.c", "src/naive_ntt1024.c", "src/ntt_red1024.c", "src/ntt_red_asm16.c", "src/ntt_red_asm1024.c"]}
{"id": "C55", "title": "Some functions branch on secret coefficients", "statement": "normalize, normalize_inv3 and shift_array of ntt_red.c take different branches for different coefficients; hence ntt_red16_product5 (which starts with shift_array) leaves different traces for different canonical polynomials.", "quantifier": "two concrete pairs of inputs (negative statement)", "why_tests_cant": "a test observes results, not traces", "anchors": ["src/ntt_red.c:normalize", "src/ntt_red.c:normalize_inv3", "src/ntt_red.c:shift_array", "src/ntt_red16.c"]}
{"id": "C56", "title": "The product procedures make R = Zq[x]/(x^n+1) a commutative ring", "statement": "Used through any of the product procedures, with their generated tables, the stored coefficients obey the ring laws exactly (not up to representatives): a*b and b*a are stored as the same coefficients, (a*b)*c and a*(b*c) too (even when the procedures differ), a*(b+c) = a*b + a*c with canonical addition mod q, a product by x^j is the rotation of the coefficients by j places with a change of sign on wrap-around, and a product by 1 returns the canonical coefficients of a.", "quantifier": "all product procedures that return canonical coefficients (default, Longa-Naehrig, AVX2), all generated tables, all canonical polynomials, all j < n", "why_tests_cant": "laws over all triples of polynomials and all pairs of procedures", "anchors": ["src/ntt16.c", "src/ntt256.c", "src/ntt512.c", "src/ntt1024.c", "src/ntt_red16.c", "src/ntt_red1024.c", "src/ntt_red_asm16.c", "src/ntt_red_asm1024.c"]}
{"id": "C57", "title": "avx2_supported answers exactly by the CPU's feature bits", "statement": "avx2_supported returns 1 exactly when cpuid leaf 1 reports OSXSAVE (ecx bit 27) and AVX (bit 28), leaf 7 subleaf 0 reports AVX2 (ebx bit 5), and XCR0 has the SSE and AVX state bits 1 and 2; it returns 0 otherwise. It never faults (xgetbv is not executed unless the operating system has enabled it) and preserves rbx and the stack.", "quantifier": "all CPUs (all functions giving the answers of cpuid and xgetbv), all register contents", "why_tests_cant": "a test runs on one CPU", "anchors": ["src/ntt_asm.S:avx2_supported"]}
{"id": "C58", "title": "The generated source files mean what the generators computed", "statement": "For accepted arguments, make_tables, make_red_tables and make_bitrev_table each write two files, named after n, that are well-formed C declarations. Read as C (comments, preprocessor lines, constants, arrays with initialisers; decimal constants only, so no octal), the header declares the parameters and tables with the right names, types and sizes, and the .c file includes that header and defines exactly the computed tables, each with the declared number of entries, every entry fitting in its declared type.", "quantifier": "all accepted sizes and values of psi", "why_tests_cant": "a build checks that the files compile, not that every number printed is the number computed, for every accepted parameter", "anchors": ["src/make_tables.c:print_table", "src/make_tables.c:print_declarations", "src/make_tables.c:print_tables", "src/make_red_tables.c:print_table", "src/make_red_tables.c:print_declarations", "src/make_red_tables.c:print_tables", "src/make_bitrev_table.c"]}
{"id": "C59", "title": "The committed table files agree with the generators", "statement": "The committed files bitrev{16,256,512,1024}_table.{h,c} are byte for byte what make_bitrev_table writes for these sizes. The committed files ntt32_tables.{h,c}, read as C, hold exactly the parameters and tables that make_tables computes for n = 32 and psi = 563 (without inv_psi_powers_rev) and the bit-reversal pairs for 32.", "quantifier": "the committed files (all their bytes); any initial memory of the generator", "why_tests_cant": "the tests use these files as they are and do not compare them with the generator", "anchors": ["src/bitrev16_table.c", "src/bitrev256_table.c", "src/bitrev512_table.c", "src/bitrev1024_table.c", "src/ntt32_tables.c", "src/ntt32_tables.h"]}
{"id": "C60", "title": "The lists of roots in data/ are complete, and are the psi the generators accept", "statement": "data/primitive-roots-{1024,2048,4096}.txt list, in increasing order and without repetition, exactly the primitive roots of unity modulo 12289 of the order in the file name. The values listed for order 2n are exactly the values of psi that make_tables and make_red_tables accept for size n.", "quantifier": "the three committed files; every integer x; every psi and initial memory", "why_tests_cant": "nothing in the repository reads these files; a missing or an extra value shows up only when someone picks that psi", "anchors": ["data/primitive-roots-1024.txt", "data/primitive-roots-2048.txt", "data/primitive-roots-4096.txt", "src/make_tables.c", "src/make_red_tables.c"]}
{"id": "C61", "title": "The propositions of src/notes.txt hold for every modulus of the form k*2^m + 1", "statement": "For q = k*2^m + 1 with k >= 1, and red(x) = k*r - a where x = a*2^m + r with 0 <= r < 2^m: red(x) is k*x modulo q; -x/2^m <= red(x) < -x/2^m + (q-k); |red(x)| <= |x|/2^m + (q-k); |red(w*x)| <= k|x| + (q-k) for 0 <= w < q. red(x) fits in 32 bits for all x between the two safe bounds of the notes, and for the numbers just outside it does not. The update bounds (k+1)B + (q-k) and 2kB + (q-k), and the bounds of the section on tighter bounds, hold.", "quantifier": "all k >= 1, m >= 0, all integers x, y, all 0 <= w < q, all B", "why_tests_cant": "the claims are about unbounded integers and about every modulus of the form; the tests only use 12289", "anchors": ["src/notes.txt", "src/ntt_red.c:mul_red", "src/ntt_asm.h"]}
{"id": "C62", "title": "The bounds listed in src/notes.txt are right, and hold for the transforms", "statement": "In each of the fourteen sequences of bounds in src/notes.txt (also in red-bounds.txt and ntt_red_bounds.txt), each number bounds the values after the round, given that the number before bounds the values before it; for the eight sequences under \"More precise bounds\" each number is the least one with this property. The starting values 36864 and 21499 are the least bounds for the product of a coefficient with a power of psi. Consequently, with any table of constants between -6144 and 6144, the results of the Cooley-Tukey transforms (n up to 4096) and Gentleman-Sande transforms (n up to 1024) of ntt_red.c stay within the number listed for log2(n) rounds.", "quantifier": "all operands and constants in the stated ranges; all tables and input arrays in the stated ranges; all n = 2^k up to the limits", "why_tests_cant": "a maximum over all operands and constants, and the results for all tables, cannot be found by running examples", "anchors": ["src/notes.txt", "src/red-bounds.txt", "src/ntt_red_bounds.txt", "src/ntt_red.c", "src/red_bounds.c"]}
{"id": "C63", "title": "The transforms of the public headers are number-theoretic transforms for the psi given to the generator", "statement": "With the tables that the generator writes for size n and psi, the functions ntt<n>_*, mulntt<n>_*, intt<n>_* and inttmul<n>_* of ntt<n>.h, naive_ntt<n>.h, ntt_red<n>.h and ntt_red_asm<n>.h return: for ntt, the sums over i of a[i]*psi^(2ij); for mulntt, the sums of a[i]*psi^i*psi^(2ij); for intt, the sums with the inverse of psi in place of psi; for inttmul, these multiplied by psi^(-j); in each case modulo Q, with input and output in the orders that the name says. The default ones return the canonical values. Each AVX2 function returns the same array as the C function of the same name, and an AVX2 forward transform, double reduction and inverse transform give back the input times 9n.", "quantifier": "all n and psi the generator accepts (up to 1024 for Longa-Naehrig, 16 to 1024 for AVX2), all input arrays with entries in the documented ranges", "why_tests_cant": "the tests call the functions with one psi per size and a few arrays; exchanging the tables of omega and of its inverse in all functions of a header leaves every product and every round trip unchanged", "anchors": ["src/ntt1024.h", "src/naive_ntt1024.h", "src/ntt_red1024.h", "src/ntt_red_asm1024.h", "src/ntt16.h", "src/ntt256.h", "src/ntt512.h"]}
{"id": "C64", "title": "The interval analysis completes on every admissible input, and its run covers every concrete run", "statement": "The abstract_ functions on arrays of intervals return a result exactly when the interval operation is defined on every element, and the result is the array of these results; abstract_correct exits at the first element outside [-12289, 24577]. The eight abstract transforms with numeric constants finish for every size up to 2048, for intervals within the 32-bit range and constants at most 6144 in absolute value and not zero; they display the intervals before each round and at the end, starting with the argument and ending with the result. If the bounds of the argument are at most b with (5/2)^k*(b + 8191) <= 2147479553 (Cooley-Tukey) or 3^k*(b + 6143) <= 2^31 - 6143 (Gentleman-Sande), the run shows no warning and every concrete run from an enclosed array is free of overflow and ends in the final intervals.", "quantifier": "all arrays of intervals, all constants in the stated range, all sizes", "why_tests_cant": "the test programs run the analysis once per table and input range; whether the search for the extreme products ends, and whether a later run could exit or overflow 64-bit bounds, depends on every interval and constant", "anchors": ["src/ntt_red_interval.c", "src/ntt_red_interval.h", "src/intervals.c", "src/red_bounds.c"]}
{"id": "C65", "title": "The verification harnesses pass all assertions for every choice of the arbitrary values", "statement": "The eight programs of verifier/vstte20-benchmarks, compiled with SAFE as the Makefile does, never fail an assertion, never overflow and never access an array out of bounds: a run is discarded by clam_assume exactly when a chosen coefficient is not in [0, Q-1] (or, in the programs c and d, a chosen constant is not in [-6144, 6143]); every other run ends, and the array then is what the transform of src/ntt_red.c returns for the chosen values. This holds with the intrinsic of the analyser and with the C code that it replaces, and the two agree on all products within the assertion of src/ntt_red.c. The assertion of the benchmark copy itself admits products on which the C code overflows, and the bounds used without SAFE are false.", "quantifier": "all values returned by int_nd, both settings of USE_CRAB_INTRINSICS, all products, any contents of the generator's uninitialised memory", "why_tests_cant": "there are 12289^1024 admitted inputs; the harnesses exist because tests cannot cover them, and the analyser's own answer is not machine-checked", "anchors": ["verifier/vstte20-benchmarks/harness_ntt_red1024.c", "verifier/vstte20-benchmarks/harness_ntt_red1024c.c", "verifier/vstte20-benchmarks/harness_ntt_red1024e.c", "verifier/vstte20-benchmarks/harness_intt_red1024.c", "verifier/vstte20-benchmarks/ntt_red.c", "verifier/vstte20-benchmarks/clam.h", "verifier/vstte20-benchmarks/Makefile"]}
{"id": "C66", "title": "The interval programs of the paper finish without a warning; with numeric constants their final intervals enclose every concrete result, with intervals of constants they do not", "statement": "The programs test_intt_red1024, test_intt_red1024b, test_ntt_red1024, test_ntt_red1024b, test_ntt_red1024e and test_ntt_red1024f of src/tests_in_paper, linked with the generated tables for n = 1024 and psi = 1014, run to the end, display eleven arrays of intervals and no warning, with all bounds within 2^31 - 12286; and for every array with values in [0, Q-1] the transform that the program is named after succeeds with the same table and its result lies in the last intervals. test_ntt_red1024c and test_ntt_red1024d, whose constants are the intervals [-6144, 6144], also finish without a warning, but their last interval is [-71854613, 71793177], while some array with values in [0, Q-1] and some constants in [-6144, 6144] give -77547700.", "quantifier": "all input arrays with 1024 values in [0, Q-1], any contents of the generator's uninitialised memory", "why_tests_cant": "a run shows intervals but not that they enclose what the C function computes on each of the 12289^1024 inputs", "anchors": ["src/tests_in_paper/test_ntt_red1024.c", "src/tests_in_paper/test_ntt_red1024b.c", "src/tests_in_paper/test_ntt_red1024e.c", "src/tests_in_paper/test_ntt_red1024f.c", "src/tests_in_paper/test_intt_red1024.c", "src/tests_in_paper/test_intt_red1024b.c", "src/ntt_red_interval.c", "src/tests_in_paper/test_ntt_red1024c.c", "src/tests_in_paper/test_ntt_red1024d.c"]}
{"id": "C67", "title": "The sixteen self-test programs pass whatever random() and the cycle counter return, except that the speed tests of test_ntt_red* overflow", "statement": "The tests of test_ntt16/256/512/1024.c, test_naive_ntt*.c, test_ntt_red*.c and test_ntt_red_asm*.c (powers of X forward, twice forward and inverse, six forward-inverse pairs on a thousand random polynomials each, five products on all pairs of powers of X) all succeed with the generated tables, for every sequence of values of random() and any contents of the uninitialised local arrays: main never exits with an error message, never fails an assertion and never accesses an array out of bounds. In the default, the naive and the assembly version main then also completes the speed tests, for every sequence of values of the cycle counter, and returns 0. The claim is false for the speed tests of test_ntt_red16.c, test_ntt_red256.c, test_ntt_red512.c and test_ntt_red1024.c: they apply ct_rev2std over and over to the same array without reducing it, and one of the first 65 calls always overflows a signed integer or fails an assertion (in test_ntt_red16.c the twelfth overflows).", "quantifier": "all sequences of values of random() and cpucycles(), any contents of uninitialised memory, all sizes and psi accepted by the generators (up to 1024 for the red version, 16 to 1024 for the assembly)", "why_tests_cant": "a run of a test program is one sequence of random values and one machine; signed overflow in the speed tests goes unnoticed because compilers wrap", "anchors": ["src/test_ntt1024.c", "src/test_naive_ntt1024.c", "src/test_ntt_red1024.c", "src/test_ntt_red_asm1024.c", "src/test_ntt_red16.c", "src/test_ntt_red_asm512.c"]}
{"id": "C68", "title": "A self-test program that returns 0 certifies its transforms on all powers of X, its pairs of transforms on the polynomials drawn, and its products on all pairs of powers of X", "statement": "Whatever functions are linked with the test program (right or wrong), if main returns 0 then: each of the eight transforms, surrounded by what the program does before and after it, maps each X^j (0 <= j < n) to the canonical values of the number-theoretic transform of X^j for the omega (or inverse omega) of the program, and maps the result to n X^(-j); each of the six tested pairs returns the array it was given for each of the thousand polynomials built from the values of random(), consecutive and reduced modulo Q; and each of the five products maps every pair X^i, X^m to the canonical coefficients of their product modulo X^n + 1.", "quantifier": "all functions under test, all n < 2^31, all sequences of values of random() and cpucycles()", "why_tests_cant": "it is a statement about the test program itself: a check that is too weak passes silently", "anchors": ["src/test_ntt_red1024.c:155-364", "src/test_ntt_red1024.c:425-467", "src/test_ntt1024.c", "src/test_naive_ntt1024.c"]}
{"id": "C69", "title": "Which shifts make the multiply-and-shift remainder of test_mod exact, and where the others fail first", "statement": "The remainder modulo Q computed as x - ((x * (2^n/Q + 1)) >> n) * Q by approx_modq is x mod Q for all x from 0 to (Q-1)^2 when the shift n is 41 to 45, as the test prints; on all of uint32_t it is exact for n = 45 only. For the other n from 30 to 49 test_approx prints the first x for which it is wrong (for n >= 46 the 32-bit factor is truncated and the first failure is Q). The signed version approx_pmodq agrees with pmodq (the remainder in [0, Q)) with n = 44 and 45 for all int32_t from -2147478171 up, and with smaller shifts from 0 up to the failure that the test prints. False parts: for -2^31 <= x <= -2147478172 with n = 44 and 45 and for large x with n >= 46 approx_pmodq overflows a signed integer, so there is no n for which the signed test completes and prints 'works'; and main overflows a signed integer in x = P * x + R before it prints anything.", "quantifier": "all n from 30 to 49 and all 32-bit x", "why_tests_cant": "the program tests each x by running for hours on 2^32 values, and its own signed overflow is undefined behaviour a run does not show", "anchors": ["src/test_mod.c:17-57", "src/test_mod.c:60-149", "src/test_mod.c:151-169"]}
{"id": "C70", "title": "The bounds that test_red finds are the exact safe range of red, and its butterfly bounds are sound", "statement": "The two binary searches of test_red terminate without failing their assertions and find -8796042698752 and 8796093026303; for every x between them red(x) fits in 32 bits, and right below and right above it does not. The scan of a block of 4096 values finds an overflow exactly if there is one. ct_bound(b) and gs_bound(b) bound both outputs of a Cooley-Tukey and of a Gentleman-Sande butterfly on inputs of absolute value at most b, for every constant 0 <= w < Q. In each of the four sequences of bounds that the program prints, every bound fits in int32_t, the reduction where one is printed brings values below the printed bound, and a butterfly takes values within a bound to values within the next one. main overflows nowhere; all it prints is determined.", "quantifier": "all 64-bit x, all b up to 2^48, all inputs and constants of the butterflies", "why_tests_cant": "the safe range has 1.7e13 elements, and the soundness of a bound is about all triples of inputs", "anchors": ["src/test_red.c:18-20", "src/test_red.c:54-109", "src/test_red.c:111-201", "src/test_red.c:203-232"]}
{"id": "C71", "title": "The Longa-Naehrig transforms and products never return a wrong result: outside the documented ranges they are right, or overflow, or fail an assertion", "statement": "Each of the twelve transforms of ntt_red16/256/512/1024.h, with the tables made by the generator and an array of any values, leaves the right transform modulo Q in the array, or overflows a signed integer, or fails the assertion of mul_red; no range is needed for the first. Each of the five products (with and without the initial shift_array), with two different arrays of any int32_t values, leaves the canonical coefficients of the product modulo X^n + 1 in c and touches nothing but a, b and c, or overflows a signed integer or fails an assertion.", "quantifier": "all sizes and psi accepted by the generator (up to 1024 for the products), all arrays", "why_tests_cant": "the documented ranges are sufficient conditions; what happens beyond them is about all int32_t arrays, and a test build wraps silently", "anchors": ["src/ntt_red.c:34-48", "src/ntt_red.c:244-560", "src/ntt_red1024.h:20-72", "src/ntt_red1024.c:17-127"]}
{"id": "C72", "title": "ct_rev2std transfers sums exactly, so it cannot be called again and again without a reduction", "statement": "When ntt_red_ct_rev2std succeeds on an array, the first entry of the result equals the sum of the array exactly (as integers, not only modulo Q), and the sum of the result equals n times the first entry of the array. Hence two calls multiply the first entry and the sum by n, and for every int32_t array whose first entry or whose sum is not 0, calling it 65 times in a row ends with a signed overflow or a failed assertion.", "quantifier": "all sizes and psi accepted by the generator, all int32_t arrays", "why_tests_cant": "an exact identity over the integers, and its consequence for every array; with wrapping arithmetic the overflow is not visible", "anchors": ["src/ntt_red.c:244-268", "src/test_ntt_red1024.c:369-392"]}
{"id": "C73", "title": "Products of size 1024 can be called again on the arrays they overwrite", "statement": "Each of the five products of ntt_red1024.c, with the tables of size 1024 (psi = 1014), accepts arrays a and b whose entries are anywhere between -300000 and 300000, writes the canonical product modulo X^1024 + 1 and Q to c, and leaves entries between -300000 and 300000 in a and b; so it can be called again on the same arrays any number of times without overflow. In particular speed_mul1024.c, speed_mul1024_naive.c, speed_mul1024_red.c and speed_mul1024_red_asm.c, which call each product 102400 times on the same two arrays and then sort the times, return 0 for every behaviour of the cycle counter and every initial contents of the local arrays (unlike the speed tests of test_ntt_red1024.c, C67).", "quantifier": "all arrays with entries in [-300000, 300000]; all cycle counters and initial contents for the programs", "why_tests_cant": "an invariant of an unbounded number of calls; a signed overflow need not be visible, and the times differ in every run", "anchors": ["src/ntt_red1024.c:17-140", "src/speed_mul1024_red.c:28-132", "src/speed_mul1024.c:68-132", "src/speed_mul1024_naive.c:68-132", "src/speed_mul1024_red_asm.c:68-132"]}
{"id": "C74", "title": "test_avx has undefined behaviour on every machine with AVX2", "statement": "Whatever the random numbers, the cycle counter and the contents of the local arrays, test_avx on a machine with AVX2 computes 2 * 0x40000000 in int (the first call of random_coeff, before anything is compared), a signed overflow; so no run of it says anything by the C standard. On a machine without AVX2 it returns 0 without testing anything.", "quantifier": "all streams of random numbers, all cycle counters, all initial contents of the local arrays", "why_tests_cant": "the overflow wraps to INT_MIN with the usual compilers and random() % INT_MIN is harmless, so every run looks fine", "anchors": ["src/test_avx.c:124-134", "src/test_avx.c:139-145", "src/test_avx.c:171-198", "src/test_avx.c:576-584"]}
{"id": "C75", "title": "With that product in 64 bits, test_avx never reports a difference, and a successful comparison certifies 10000 arrays", "statement": "With line 129 repaired: for every stream of random numbers and every size n that is a multiple of 16, the four comparisons of reduce_array_asm(2) and reduce_array_twice_asm(2), test_correction and test_shift succeed and consume 10000n random numbers. The comparisons of mul_reduce_array16, mul_reduce_array and scalar_mul_reduce_array never report a difference: they succeed or stop in the C function because a product is outside the range of mul_red; they succeed if no admitted product is 2^43 or more, the 16-bit filter accepts often enough, and no scalar is negative. A cross_check that succeeds has found two functions equal on the first n entries for 10000 arrays whose entries are the successive random numbers minus 2^30.", "quantifier": "all streams of random numbers below 2^31, all multiples of 16 below 2^32, all initial contents of the local arrays", "why_tests_cant": "the statement is about the test itself, for every random stream", "anchors": ["src/test_avx.c:104-122", "src/test_avx.c:171-198", "src/test_avx.c:298-532", "src/test_avx.c:537-551"]}
{"id": "C76", "title": "The generators of test_avx do not keep to the ranges of the C products", "statement": "With line 129 repaired: (1) when the random scalar is negative and the array has entries of both signs, random_array_for_scalar_mul never shrinks the scalar, and if a product is out of range the test stops with a failed assertion or a signed overflow; (2) the filter of random_arrays_for_mul_reduce16 lets products from 2^43 to 2^43 + 4095 through, and when the first pair has such a product the test stops with a signed overflow; (3) the speed tests of mul_reduce_array16 and mul_reduce_array in C draw factors without a filter, and stop whenever a product is out of range. The fifteen other speed tests run to the end for every stream of random numbers, every cycle counter and every contents of the global arrays.", "quantifier": "all streams of random numbers below 2^31, all sizes", "why_tests_cant": "release builds switch the assertions off and wrap silently, so the assembly and the C function are still compared but outside the documented range", "anchors": ["src/test_avx.c:104-122", "src/test_avx.c:200-292", "src/test_avx.c:382-400", "src/test_avx.c:484-532", "src/test_avx.c:553-573", "src/ntt_red.c:34-48"]}
{"id": "C77", "title": "The known-answer programs give the right verdict on any data", "statement": "Whatever 300 arrays of 1024 coefficients are compiled into data_poly1024.c (a and b from 0 to Q-1, c arbitrary) and whatever the local arrays hold at first, kat_mul1024, kat_mul1024_red and kat_mul1024_red_asm return 0 exactly when every coefficient of every c[i] is that of the canonical product of a[i] and b[i] modulo X^1024+1, and otherwise exit with a failure. No other outcome is possible, and the three programs always agree.", "quantifier": "all known-answer data, all initial contents of the local arrays", "why_tests_cant": "a run of the programs only shows the verdict on the one data set shipped; that a wrong answer in any row and any coefficient would be noticed, and a right one never rejected, concerns all data sets", "anchors": ["src/kat_mul1024.c:21-67", "src/kat_mul1024_red.c:22-68", "src/kat_mul1024_red_asm.c:22-68", "src/data_poly1024.c:17-1021", "src/data_poly1024.h:10-15"]}
{"id": "C78", "title": "Gentleman-Sande transforms on any interval of inputs, and all transforms at n=2048", "statement": "If the inputs of the four Gentleman-Sande transforms of ntt_red lie in an interval [lo, hi] with -lo <= 3*hi, hi <= 24570 - 3*lo and 3^k*(2*(hi-lo) + 12285) <= 2^33 - 24576 where n = 2^k, then with any table of constants between -6144 and 6144 no transform overflows or leaves its arrays, four times the result is at most 3^k*(2*(hi-lo) + 12285) + 24576 in absolute value, and with a table meeting the contract the result is the transform. Only the width of the interval matters: inputs 0..Q-1 and -6144..6144 are fine up to n = 2048, and at n = 1024 so is -33296..33296. In particular, for inputs 0..Q-1 all eight transforms are free of overflow at n = 2048 whatever the constants, which the paper denies.", "quantifier": "every n=2^k>=2, every interval meeting the condition, every input array in it, every table within the bounds or meeting the contract", "why_tests_cant": "the worst case is an adversarial combination of inputs and constants, and the paper's own analysis gives up at n=2048", "anchors": ["src/ntt_red.c", "src/ntt_red.h", "paper/main_final.pdf"]}
{"id": "C79", "title": "test_ntt_red's test on powers of X accepts exactly the functions that compute the NTT", "statement": "For every n=2^k from 2 to 2048, every table of n constants between -6144 and 6144 (right or wrong), every root omega with omega^(n/2) = -1 modulo Q and each of the eight transforms of ntt_red wrapped as in test_ntt_red.c, test_simple_polys succeeds if and only if the wrapped function computes the canonical NTT of every array with entries 0..Q-1; if it does not succeed it calls exit. Neither case reads or writes out of bounds or overflows, and what the test's uninitialised array contains does not matter.", "quantifier": "every n=2^k<=2048, every table of constants within the bounds, every root, all eight transforms, every initial content of the local array; on the right-hand side every canonical array", "why_tests_cant": "the test tries n arrays out of Q^n; that this is enough is a statement about all tables and all arrays, and that a wrong table never escapes cannot be sampled", "anchors": ["src/test_ntt_red.c", "src/ntt_red.c"]}
{"id": "C80", "title": "Tables and outcome of the program test_ntt_red", "statement": "The five permutation tables of test_bitrev_tables.c have the same effect as bitrev_shuffle; each of the 48 tables of test_ntt_red_tables.c holds the powers of omega (or of psi and omega) divided by 3, in the stated order and range, and each of the 20 tables of test_ntt_tables.c the powers themselves. All 48 tests of test_ntt_red.c succeed whatever the uninitialised local arrays contain. But the first speed measurement after them, which applies ntt_red_ct_rev2std of size 16 over and over to the same array, makes a signed addition overflow in its twelfth call, whatever the values of the cycle counter, so that the program has undefined behaviour on every run.", "quantifier": "every entry of the tables; every content of the local arrays, every sequence of values of the cycle counter", "why_tests_cant": "the overflow is silent on the usual compilers, and the tables are compared with nothing", "anchors": ["src/test_ntt_red.c", "src/test_bitrev_tables.c", "src/test_ntt_red_tables.c", "src/test_ntt_tables.c"]}
{"id": "C81", "title": "The transforms are linear modulo Q for any table", "statement": "For every n=2^k, every function composed of the nine forward transforms of ntt.c, mul_array16 and bitrev_shuffle, with any tables of n constants in 0..Q-1, maps x*a+y*b to x*f(a)+y*f(b) modulo Q with canonical results, for all canonical arrays a, b and integers x, y. The same holds modulo Q for the eight transforms of ntt_red.c with n from 2 to 2048 and any constants and inputs between -6144 and 6144.", "quantifier": "every n=2^k, every table within the bounds (not only the tables of powers of omega), every pair of arrays, every pair of coefficients, every composition", "why_tests_cant": "the tests use the committed tables and a few arrays; linearity is a statement about all pairs of arrays and is what makes tests on powers of X meaningful", "anchors": ["src/ntt.c", "src/ntt_red.c"]}
{"id": "C82", "title": "The two tests of test_ntt.c decide", "statement": "For every function composed of the transforms of ntt.c, mul_array16 and bitrev_shuffle with any tables of constants in 0..Q-1: test_simple_polys succeeds if and only if the function computes the canonical NTT of every canonical array, and cross_check succeeds on two such functions if and only if they agree on every canonical array. Otherwise they call exit; neither reads or writes out of bounds or overflows, whatever the uninitialised local arrays contain.", "quantifier": "every n=2^k (up to 8192 for test_simple_polys), every root, all tables, all compositions, every initial content of the local arrays; on the right-hand sides every canonical array", "why_tests_cant": "that n arrays out of Q^n are enough is a statement about all functions of the class and all arrays", "anchors": ["src/test_ntt.c", "src/ntt.c"]}
{"id": "C83", "title": "test_ntt.c: the functions tested are right and the program returns 0", "statement": "Each of the 24 variants of the NTT in test_ntt.c (sizes 16, 256, 512 and 1024) computes the canonical NTT of every canonical array, and each of the 16 transforms with multiplication built in gives the same result as the multiplication and the transform done separately. All tests pass, the 54 speed measurements are free of undefined behaviour, and main returns 0, whatever the cycle counter returns and whatever the local arrays contain at first.", "quantifier": "every canonical array; every sequence of values of the cycle counter, every content of the local arrays", "why_tests_cant": "the tests only try the powers of X, and undefined behaviour in the measurements would be silent", "anchors": ["src/test_ntt.c", "src/ntt.c", "src/test_ntt_tables.c", "src/test_bitrev_tables.c"]}
{"id": "C84", "title": "test_ntt_avx.c never finds a difference, but its measurements can overflow", "statement": "Each of the 48 pairs of assembly and C transforms that test_ntt_avx.c compares (eight transforms, sizes 16 to 2048, the tables of test_ntt_red_tables.c) gives the same result on every array with entries in -200000..199999. Hence the comparisons succeed and the program never calls exit, whatever random() and the cycle counter return and whatever the local arrays contain. A comparison that succeeds has compared the two functions on 100000 arrays. The speed measurements are not safe: when random() returns 0, the first one has signed overflow in its seventh call. Nothing worse can happen: whatever the random numbers and cycle counts, main returns 0 or stops at a signed overflow or a failed assertion of a C transform; it never leaves an array, loops for ever or divides by zero.", "quantifier": "all arrays with entries in the range; all sequences of random numbers, of cycle counts, all contents of the local arrays", "why_tests_cant": "the program tries 100000 random arrays out of 400000^n, and undefined behaviour in the measurements is silent", "anchors": ["src/test_ntt_avx.c", "src/ntt_asm.S", "src/ntt_red.c", "src/test_ntt_red_tables.c"]}
{"id": "C85", "title": "test_red_bounds.c ends, and its bounds are exact and certify the transforms", "statement": "Whatever its uninitialised array contains, test_red_bounds.c ends without a failed assertion, an overflow or an access out of bounds. The intervals after repeated reductions are the exact ranges of red and shrink from the 32 bit numbers to -2..12286 (to -12289..12289 for absolute values). The bounds of the twenty Cooley-Tukey and Gentleman-Sande rounds fit in 32 bits and are exact for one round, with a reduction exactly when the next bound would not fit. The bounds on products are exact and attained where printed; their maxima are 36864, 21499 and 30709. For the 24 tables of constants, '--> overflow' appears exactly for Gentleman-Sande with n = 2048 and inputs up to 36864; every bound printed without it holds for the transform on all inputs within the given bound, without overflow. The slow double checks, which main does not run, cover every interval and every constant they are meant to cover, would not find an error, and would find any wrong bound function.", "quantifier": "all contents of the local array; all inputs of the transforms within the bounds; all x and w in the intervals", "why_tests_cant": "the program prints bounds on all inputs; its own slow checks cover only some intervals and are switched off", "anchors": ["src/test_red_bounds.c", "src/red_bounds.c", "src/ntt_red.c", "src/test_ntt_red_tables.c"]}
{"id": "C86", "title": "test_shift.c prints the masks that the conditional corrections need", "statement": "For x = i and x = -i with 0 <= i < 1003, x >> 31 and x >> 11 are -1 if x is negative and 0 otherwise, so that (x >> 31) & Q and (x >> 11) & Q are Q or 0.", "quantifier": "all i of the loop", "why_tests_cant": "the program only prints; nobody compares its 8024 numbers with what they should be", "anchors": ["src/test_shift.c"]}
{"id": "C87", "title": "Functions use only the first n elements of their arrays", "statement": "If an array function, transform or product procedure (default, naive, Longa-Naehrig, AVX2) returns a result on some arrays and tables, then on longer arrays and tables with the same beginnings it returns the same values followed by the unchanged rest of the array; nothing beyond is read or written. If it overflows or fails an assertion on the short arrays, so it does on the long ones. With aliased arguments too.", "quantifier": "all functions, sizes n, arrays, tables, moduli of the naive functions, extensions of the arrays, aliasing of the arguments of products", "why_tests_cant": "the tests use arrays of exactly n elements; reads beyond the end do not show in results, and the property is about all contents of the rest", "anchors": ["src/ntt.c", "src/naive_ntt.c", "src/ntt_red.c", "src/ntt_asm.S", "src/ntt16.c", "src/naive_ntt16.c", "src/ntt_red16.c", "src/ntt_red_asm16.c"]}
{"id": "C88", "title": "A self-test that passes certifies the build, whatever tables it was linked with", "statement": "Link a self-test program (test_ntt*.c, test_naive_ntt*.c, test_ntt_red*.c, test_ntt_red_asm{16,256,512}.c) with tables of arbitrary numbers in the range of the entries, right or wrong. If its tests succeed, then omega and inverse omega are primitive n-th roots of unity (omega^(n/2) = -1 mod Q), each of the eight transforms computes the number-theoretic transform of every array, and each of the five products computes the product modulo X^n + 1 of every two arrays.", "quantifier": "all tables with entries in 0..Q-1 (default, naive) or -6144..6144 (red, asm), all random numbers, all contents of the stack, all power-of-two sizes the shuffle tables exist for (up to 1024 for red, 16..1024 for asm), all arrays", "why_tests_cant": "the tests try the n powers of X, some random arrays and the pairs of powers of X; that this settles all 12289^n inputs needs linearity of the code for wrong tables too, without overflow", "anchors": ["src/test_ntt1024.c", "src/test_naive_ntt1024.c", "src/test_ntt_red1024.c", "src/test_ntt_red_asm512.c", "src/ntt1024.c", "src/naive_ntt1024.c", "src/ntt_red1024.c", "src/ntt_red_asm512.c"]}
{"id": "C89", "title": "Arbitrary contents cannot cause an access outside the arrays or an endless loop", "statement": "Whatever integers the arrays and tables contain, if they have at least n elements, every array function, transform and product procedure of the default, naive and Longa-Naehrig implementations finishes and accesses no element outside its arrays: it returns arrays of unchanged lengths, or fails by a signed overflow, by an assertion (Longa-Naehrig only) or by a division by zero (naive functions, only for the modulus zero). The products that use the AVX2 routines return a result always. With aliased arguments too.", "quantifier": "all sizes n = 2^k, 0 <= k <= 31 (4 <= k for AVX2; any n < 2^32 for the array functions), all contents and lengths at least n of arrays and tables, all moduli of the naive functions, all aliasings", "why_tests_cant": "the tests use arrays of reduced values and the generated tables; memory safety on other contents (say, unvalidated input of an attacker) is a statement about all contents", "anchors": ["src/ntt.c", "src/naive_ntt.c", "src/ntt_red.c", "src/ntt16.c", "src/naive_ntt16.c", "src/ntt_red16.c", "src/ntt_red_asm16.c", "src/ntt_red_asm1024.c"]}
{"id": "C90", "title": "Transforms can be kept, mixed and accumulated: one inverse transform for a sum of products", "statement": "A caller who keeps transforms gets what the products give. The three ways to transform a polynomial forward that occur in the product procedures (multiplication by the powers of psi and Cooley-Tukey, the same and Gentleman-Sande, the combined transform) give the same array (default implementation) or arrays that agree modulo Q (naive, Longa-Naehrig, and Longa-Naehrig C and AVX2 together). If d[i] is congruent to the sum over any number of pairs of the products of elements i of the transforms (with the factor 3 of mul_reduce_array for Longa-Naehrig, where d[i] may be any value of type int32_t), then each of the inverse halves of the products returns the sum of the products of the pairs modulo X^n + 1, reduced to 0..Q-1 (to -Q+1..Q-1 for naive). Each transform may have been made by a different forward half, and by C or AVX2 functions.", "quantifier": "all accepted tables (all sizes for default and naive, up to 1024 for Longa-Naehrig, 16 to 1024 for AVX2), all lists of pairs of polynomials of any length, all combinations of forward and inverse halves, all representatives d of the sum, with and without shift_array", "why_tests_cant": "the tests and the product functions only use five fixed combinations with one product; the number of pairs, the choice of halves and the representatives are unbounded", "anchors": ["src/ntt1024.c", "src/naive_ntt1024.c", "src/ntt_red1024.c", "src/ntt_red16.c", "src/ntt_red_asm16.c", "src/ntt_red_asm1024.c", "src/ntt1024.h", "src/ntt_red1024.h", "src/ntt_red_asm1024.h"]}
{"id": "C91", "title": "The plain transforms multiply polynomials modulo X^n - 1", "statement": "For the default and the naive implementation: transforming two arrays with any of the plain transforms from standard to bit-reversed order, multiplying element by element (mul_array), transforming back with any of the plain inverse transforms and multiplying by ntt_inv_n gives the product modulo X^n - 1, in 0..Q-1 (default) or congruent modulo Q in -Q+1..Q-1 (naive). The roles of the transforms and the inverse transforms may be exchanged. The result may be stored in either argument; no other array changes. No operation overflows.", "quantifier": "all tables written by the generator (all accepted sizes and psi), all arrays of reduced coefficients, all combinations of the plain transforms, all aliasings of the result", "why_tests_cant": "infinitely many inputs and tables; the library and its tests contain only the products modulo X^n + 1, although all the functions are public", "anchors": ["src/ntt.c", "src/naive_ntt.c", "src/ntt1024.h", "src/naive_ntt1024.h", "src/ntt1024.c"]}
{"id": "C92", "title": "The forward and inverse halves of the products undo each other", "statement": "For the default implementation, each of the three ways to transform a polynomial forward and each of the three ways to transform back that occur in the product procedures are inverse to each other, exactly, on all arrays with elements in 0..Q-1: both compositions return the array they were given, so that every array of n elements in 0..Q-1 is the transform of exactly one polynomial. For the naive implementation the same holds modulo Q. For Longa-Naehrig, C and AVX2 in any combination, both compositions return the array divided by 9 modulo Q (the inverse halves take any values of type int32_t).", "quantifier": "all accepted tables (all sizes for default and naive, up to 1024 for Longa-Naehrig, 16 to 1024 for AVX2), all arrays in the stated ranges, all combinations of forward and inverse halves, with and without shift_array", "why_tests_cant": "Q^n arrays; the tests transform forward and back with fixed pairs of functions and a few arrays", "anchors": ["src/ntt1024.c", "src/naive_ntt1024.c", "src/ntt_red1024.c", "src/ntt_red16.c", "src/ntt_red_asm16.c", "src/ntt_red_asm1024.c", "src/ntt1024.h", "src/ntt_red1024.h", "src/ntt_red_asm1024.h"]}
{"id": "C93", "title": "Polynomials are divided by dividing their transforms", "statement": "A polynomial has an inverse modulo X^n + 1 and Q exactly if its transform, by any of the forward halves, has no element that is 0 modulo Q. In this case it can be cancelled in products; otherwise its product with some polynomial that is not 0 is 0. If A and C are transforms of a and c and A[i]*d[i] is congruent to C[i] for all i (to 27*C[i] for Longa-Naehrig), then every inverse half applied to d returns a polynomial q with a*q = c modulo X^n + 1 and Q, in 0..Q-1 (in -Q+1..Q-1 for naive).", "quantifier": "all accepted tables (all sizes for default and naive, up to 1024 for Longa-Naehrig, 16 to 1024 for AVX2), all arrays in the stated ranges, all combinations of forward and inverse halves, with and without shift_array; all pairs of polynomials; all representatives d", "why_tests_cant": "the existence of an inverse is a statement about all Q^n candidates", "anchors": ["src/ntt1024.c", "src/naive_ntt1024.c", "src/ntt_red1024.c", "src/ntt_red16.c", "src/ntt_red_asm16.c", "src/ntt_red_asm1024.c", "src/ntt1024.h", "src/ntt_red1024.h", "src/ntt_red_asm1024.h"]}
{"id": "C94", "title": "When the product procedures compute the product of integer polynomials", "statement": "Store integer polynomials X and Y (coefficients of either sign and any size) as residues modulo Q and call any of the product procedures with canonical results (default, Longa-Naehrig, AVX2). Every coefficient of the product modulo X^n + 1 over the integers that lies in -6144..6144 is then recovered exactly as the centred residue of the result. This holds for the whole product if the coefficients of Y are within C and the sum of the absolute values of the coefficients of X is at most 6144/C, with the factors in either order. If X has at most p and Y at most q coefficients with p + q <= n + 1, nothing comes around: the result is the ordinary product modulo Q. The naive procedures, given any representatives of the coefficients between -Q + 1 and Q - 1, have the same three properties, with results that are such representatives.", "quantifier": "all integer polynomials X, Y; all accepted tables with n <= 1024 and all sixteen procedures, result array separate or equal to an argument; all accepted tables and all five naive procedures, arguments in different arrays", "why_tests_cant": "the bound concerns the worst case over all polynomials; random tests use uniform residues and compare residues only", "anchors": ["src/ntt1024.h", "src/ntt_red1024.h", "src/ntt_red_asm1024.h", "src/ntt1024.c", "src/ntt_red1024.c", "src/ntt_red_asm1024.c", "src/naive_ntt1024.h", "src/naive_ntt1024.c"]}
{"id": "C95", "title": "The known-answer programs check every function on every row", "statement": "Whatever five functions take the place of the product functions in kat_mul1024.c (each only has to end normally on canonical arrays, to keep to the arrays it gets, and to compute its result from the two arguments), and whatever data is compiled in, main returns 0 exactly when each of the five functions gives c[i] for a[i] and b[i] in all 100 rows. Otherwise it exits with a failure.", "quantifier": "all functions, all known-answer data, all initial contents of the local arrays", "why_tests_cant": "the functions shipped are right, so that a program that skips one of them or some rows would print the same; that a wrong function would be noticed in every position and on every row concerns all functions", "anchors": ["src/kat_mul1024.c:29-67", "src/kat_mul1024_red.c:30-68", "src/kat_mul1024_red_asm.c:30-68", "src/data_poly1024.c:619-1021"]}
{"id": "C96", "title": "The plain Longa-Naehrig transforms, C and AVX2, multiply polynomials modulo X^n - 1", "statement": "For n at most 1024: transforming two arrays with any of the plain Longa-Naehrig transforms from standard to bit-reversed order, reducing (reduce_array), multiplying element by element (mul_reduce_array), reducing twice, transforming back with any of the plain inverse transforms, multiplying by rescale8, reducing twice and correcting gives exactly the product modulo X^n - 1, in 0..Q-1. The same holds for the AVX2 functions (n at least 16), also when C transforms are mixed in. The roles of the transforms and the inverse transforms may be exchanged. The arguments may be in -6144..Q-1 and may be shifted first or not. The result may be stored in either argument; no other array changes. No operation overflows.", "quantifier": "all tables written by the generator for n up to 1024 and every psi, all arrays in the range, all combinations of the plain transforms, with and without shifts, all aliasings of the result", "why_tests_cant": "infinitely many inputs and tables; the library and its tests contain only the products modulo X^n + 1; the powers of 3 left by the reductions and the 32-bit bounds after a plain inverse transform have to fit together for all inputs", "anchors": ["src/ntt_red.c:103-225", "src/ntt_asm.S", "src/ntt_red1024.h:21-52", "src/ntt_red_asm1024.h:22-53", "src/ntt_red1024.c:111-127", "src/ntt_red_asm1024.c:111-127"]}
{"id": "C97", "title": "The bounds listed in src/red-bounds.txt for the 24 tables are the best possible, hold for the transforms, and are what red_bounds.c computes", "statement": "src/red-bounds.txt lists, for each of the 24 tables of constants of test_ntt_red_tables.c and four bounds on the input, the bounds B[0], B[1], .. after the rounds of Cooley-Tukey and of Gentleman-Sande. Each number is the least bound on the results of the butterflies of the round, given that the number before bounds the operands. ntt_ct_bounds and ntt_gs_bounds of red_bounds.c store exactly these sequences and return the last number. For all input arrays within the first number, the transforms of ntt_red.c with the table do not overflow and their results stay within the last number, except for Gentleman-Sande with n = 2048 and inputs up to 36864, whose last number does not fit in 32 bits. The current test_red_bounds.c, which has one more bound on the input (30709), still prints the same final bounds.", "quantifier": "all operands of each butterfly and all constants of each row of the 24 tables; all input arrays within the bounds; all contents of the array for the bounds", "why_tests_cant": "that a number bounds every result, and that no smaller one does, is a statement on all operands; the file was written by an older version of the program and nothing compares them", "anchors": ["src/red-bounds.txt:279-2566", "src/red_bounds.c:428-484", "src/test_red_bounds.c:403-431", "src/test_ntt_red_tables.c", "src/ntt_red.c"]}
