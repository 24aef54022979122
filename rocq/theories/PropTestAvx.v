(** test_avx.c: comparison of the assembly functions on arrays with the C functions. *)

From Coq Require Import ZArith List Bool Lia.
From Verif Require Import CSem Spec ModelRed ModelAvx ModelSort ModelTests ModelTestAvx TestAvxFinal.
Import ListNotations.
Open Scope Z_scope.

(** C74. On a machine with AVX2 the program always reaches undefined behaviour: the first
    call of random_coeff computes 2 * 0x40000000 in 32 bits.  Without AVX2 it returns 0. *)
Theorem test_avx_defined_refuted :
  forall rnd clk stk tries,
  main rnd clk stk (mul32 2) tries true = Err SignedOverflow /\ main rnd clk stk (mul32 2) tries false = Ok 0.
Proof. exact (fun rnd clk stk tries => conj (main_undefined rnd clk stk tries) (main_without_avx2 rnd clk stk _ tries)). Qed.
Print Assumptions test_avx_defined_refuted.

Example test_avx_defined_refuted_ex :
  random_coeff (fun _ => 5) (mul32 2) 1073741824 0 = Err SignedOverflow
  /\ random_coeff (fun _ => 5) (mul32 2) 1073741823 0 = Ok (-1073741818, 1)
  /\ random_coeff (fun _ => 5) wide 1073741824 0 = Ok (-1073741819, 1).
Proof. vm_compute. repeat split. Qed.

(** C75. Once the product on line 129 is computed in 64 bits, the comparisons of the
    reductions, of the correction and of the shift succeed for any random numbers. *)
Theorem test_avx_reductions_pass :
  forall rnd stk n r, (forall k, 0 <= rnd k < 2 ^ 31) -> 0 < n < 2 ^ 32 -> n mod 16 = 0 -> (forall i, zlen (stk n i) = n) ->
  cross_check rnd stk wide n reduce_array_asm reduce_array r = Ok (r + 10000 * n)
  /\ cross_check rnd stk wide n reduce_array_asm2 reduce_array r = Ok (r + 10000 * n)
  /\ cross_check rnd stk wide n reduce_array_twice_asm reduce_array_twice r = Ok (r + 10000 * n)
  /\ cross_check rnd stk wide n reduce_array_twice_asm2 reduce_array_twice r = Ok (r + 10000 * n)
  /\ test_correction rnd stk n r = Ok (r + 10000 * n)
  /\ test_shift rnd stk n r = Ok (r + 10000 * n).
Proof. exact test_avx_reductions_pass_L. Qed.
Print Assumptions test_avx_reductions_pass.

Example test_avx_reductions_pass_ex :
  (forall k, 0 <= rnd_scalar k < 2 ^ 31) /\ (forall i, zlen (stk_zero 16 i) = 16)
  /\ random_array rnd_scalar wide (zeros 16) 16 0 = Ok (-1073741824 :: 1073741823 :: repeat 0 14, 16)
  /\ reduce_array_asm (-1073741824 :: 1073741823 :: repeat 0 14) 16 = Ok (262144 :: -249858 :: repeat 0 14)
  /\ cross_check rnd_scalar stk_zero wide 16 reduce_array_asm reduce_array 0 = Ok 160000.
Proof.
  assert (L : forall i, zlen (stk_zero 16 i) = 16) by (intros i; reflexivity).
  split; [exact rnd_scalar_source|]. split; [exact L|]. split; [vm_compute; reflexivity|]. split; [vm_compute; reflexivity|].
  destruct (test_avx_reductions_pass rnd_scalar stk_zero 16 0 rnd_scalar_source ltac:(split; reflexivity) eq_refl L) as [H _]. exact H.
Qed.

(** C75. The comparisons of the products never find a difference: they succeed, or they
    stop in the C function on a product out of its range, or (16 bits) they draw forever. *)
Theorem test_avx_products_never_mismatch :
  forall rnd stk tries n r, (forall k, 0 <= rnd k < 2 ^ 31) -> 0 < n < 2 ^ 32 -> n mod 16 = 0 -> (forall i, zlen (stk n i) = n) ->
  let t16 := test_mul_reduce_array16 rnd stk wide tries n r in
  let tm := test_mul_reduce_array rnd stk wide n r in
  let ts := test_scalar_mul_reduce_array rnd stk wide n r in
  ((exists r', t16 = Ok r') \/ t16 = Err SignedOverflow \/ t16 = Err NoFuel)
  /\ (tm = Ok (r + 20000 * n) \/ tm = Err SignedOverflow)
  /\ (ts = Ok (r + 10000 * (n + 1)) \/ ts = Err AssertFail \/ ts = Err SignedOverflow).
Proof. exact test_avx_products_never_mismatch_L. Qed.
Print Assumptions test_avx_products_never_mismatch.

Example test_avx_products_never_mismatch_ex :
  (forall k, 0 <= rnd_window k < 2 ^ 31) /\ (forall i, zlen (stk_zero 16 i) = 16)
  /\ shrink 1073741823 1073741823 = Ok 8191 /\ shrink (-1073741824) 1073741823 = Ok 8191
  /\ mul_reduce_array16 [1073741823] 1 [8191] = Ok [-2147221499].
Proof.
  split; [exact rnd_window_source|]. split; [intros i; reflexivity|]. vm_compute. repeat split.
Qed.

(** C75. They succeed when no product that the filters let through is 2^43 or more, when
    the filter of the 16-bit pairs accepts often enough, and for scalars that are not negative. *)
Theorem test_avx_products_pass :
  forall rnd stk tries n r m, (forall k, 0 <= rnd k < 2 ^ 31) -> 0 < n < 2 ^ 32 -> n mod 16 = 0 -> (forall i, zlen (stk n i) = n) ->
  let x := fun k => rnd k - 2 ^ 30 in let y := fun k => rnd k mod 2 ^ 16 - 2 ^ 15 in
  ((forall k, exists j, 0 <= j < m /\ -8796042698752 <= x (k + 2 * j) * y (k + 2 * j + 1) <= 8796093026303) -> m * n < Z.of_nat tries ->
   (forall k, -8796042698752 <= x k * y (k + 1) <= 8796093026303 -> x k * y (k + 1) < 2 ^ 43) ->
   exists r', test_mul_reduce_array16 rnd stk wide tries n r = Ok r')
  /\ ((forall k l j, 0 <= j <= 31 -> -8796042698752 <= x k * (x l / 2 ^ j) <= 8796093026303 -> x k * (x l / 2 ^ j) < 2 ^ 43) ->
   test_mul_reduce_array rnd stk wide n r = Ok (r + 20000 * n)
   /\ ((forall j, 0 <= j < 10000 -> 0 <= x (r + (n + 1) * j + n)) ->
    test_scalar_mul_reduce_array rnd stk wide n r = Ok (r + 10000 * (n + 1)))).
Proof. exact test_avx_products_pass_L. Qed.
Print Assumptions test_avx_products_pass.

Example test_avx_products_pass_ex :
  (exists r', test_mul_reduce_array16 rnd_small stk_zero wide 100 48 7 = Ok r')
  /\ test_mul_reduce_array rnd_small stk_zero wide 48 7 = Ok 960007
  /\ test_scalar_mul_reduce_array rnd_small stk_zero wide 48 7 = Ok 490007
  /\ rnd_small 9 - 2 ^ 30 = 9.
Proof.
  destruct (test_avx_products_pass rnd_small stk_zero 100 48 7 1 rnd_small_source ltac:(split; reflexivity) eq_refl (fun i => eq_refl)) as [H1 H2].
  split.
  - apply H1; [exact rnd_small_often|reflexivity|exact rnd_small_clear16].
  - destruct (H2 rnd_small_clear) as [H3 H4]. split; [exact H3|]. split; [|reflexivity]. exact (H4 rnd_small_scalar).
Qed.

(** C75. A cross check that succeeds has compared the two functions on 10000 arrays whose
    entries are the random numbers minus 2^30. *)
Theorem cross_check_certifies :
  forall rnd stk n f g r r', (forall k, 0 <= rnd k < 2 ^ 31) -> 0 <= n < 2 ^ 32 -> (forall i, zlen (stk n i) = n) ->
  (forall a b, zlen a = n -> f a n = Ok b \/ g a n = Ok b -> zlen b = n) ->
  cross_check rnd stk wide n f g r = Ok r' ->
  r' = r + 10000 * n /\ forall j, 0 <= j < 10000 -> exists a x y, zlen a = n
    /\ (forall i, 0 <= i < n -> at_ a i = rnd (r + n * j + i) - 2 ^ 30)
    /\ f a n = Ok x /\ g a n = Ok y /\ forall i, 0 <= i < n -> at_ x i = at_ y i.
Proof. exact (fun rnd stk n f g r r' H => cross_check_certifies_L rnd (fun k => k) (source_of rnd H) stk n f g r r'). Qed.
Print Assumptions cross_check_certifies.

Example cross_check_certifies_ex :
  (forall a b, zlen a = 16 -> Ok a = Ok b \/ Ok a = Ok b -> zlen b = 16)
  /\ cross_check rnd_scalar stk_zero wide 16 reduce_array_asm reduce_array 0 = Ok (0 + 10000 * 16).
Proof.
  split; [intros a b H [E|E]; injection E as <-; exact H|].
  exact (proj1 (test_avx_reductions_pass rnd_scalar stk_zero 16 0 rnd_scalar_source ltac:(split; reflexivity) eq_refl (fun i => eq_refl))).
Qed.

(** C76. The filter of the scalars misses: with a negative scalar and entries of both signs
    nothing is filtered, and an entry whose product is out of range stops the test. *)
Theorem test_avx_scalar_filter_refuted :
  forall rnd stk n r i0 i1 i2, (forall k, 0 <= rnd k < 2 ^ 31) -> 0 < n < 2 ^ 32 -> n mod 16 = 0 -> (forall i, zlen (stk n i) = n) ->
  let x := fun k => rnd k - 2 ^ 30 in
  x (r + n) < 0 -> 0 <= i0 < n -> x (r + i0) <= 0 -> 0 <= i1 < n -> 0 <= x (r + i1) ->
  0 <= i2 < n -> ~ (-8796042698752 <= x (r + i2) * x (r + n) <= 8796093026303) ->
  test_scalar_mul_reduce_array rnd stk wide n r = Err AssertFail \/ test_scalar_mul_reduce_array rnd stk wide n r = Err SignedOverflow.
Proof. exact test_avx_scalar_stops_L. Qed.
Print Assumptions test_avx_scalar_filter_refuted.

Example test_avx_scalar_filter_refuted_ex :
  random_array_for_scalar_mul rnd_scalar wide (zeros 16) 16 0 = Ok (-1073741824 :: 1073741823 :: repeat 0 14, -1073741824, 17)
  /\ (test_scalar_mul_reduce_array rnd_scalar stk_zero wide 16 0 = Err AssertFail
      \/ test_scalar_mul_reduce_array rnd_scalar stk_zero wide 16 0 = Err SignedOverflow).
Proof.
  split; [vm_compute; reflexivity|].
  apply (test_avx_scalar_filter_refuted rnd_scalar stk_zero 16 0 0 1 0 rnd_scalar_source); [split; reflexivity|reflexivity| | | | | | | |].
  - intros i. reflexivity.
  - reflexivity.
  - split; [discriminate|reflexivity].
  - vm_compute. discriminate.
  - split; [discriminate|reflexivity].
  - vm_compute. discriminate.
  - split; [discriminate|reflexivity].
  - vm_compute. intros [_ H]. apply H. reflexivity.
Qed.

(** C76. The filter of the 16-bit pairs lets 2^43 .. 2^43 + 4095 through: such a pair, drawn
    first, stops the test in the C function. *)
Theorem test_avx_mul16_filter_refuted :
  forall rnd stk tries n r m, (forall k, 0 <= rnd k < 2 ^ 31) -> 0 < n < 2 ^ 32 -> n mod 16 = 0 -> (forall i, zlen (stk n i) = n) ->
  let x := fun k => rnd k - 2 ^ 30 in let y := fun k => rnd k mod 2 ^ 16 - 2 ^ 15 in
  (forall k, exists j, 0 <= j < m /\ -8796042698752 <= x (k + 2 * j) * y (k + 2 * j + 1) <= 8796093026303) -> m * n < Z.of_nat tries ->
  2 ^ 43 <= x r * y (r + 1) <= 2 ^ 43 + 4095 ->
  test_mul_reduce_array16 rnd stk wide tries n r = Err SignedOverflow.
Proof. exact test_avx_mul16_stops_L2. Qed.
Print Assumptions test_avx_mul16_filter_refuted.

Example test_avx_mul16_filter_refuted_ex :
  (rnd_window 0 - 2 ^ 30) * (rnd_window 1 mod 2 ^ 16 - 2 ^ 15) = 2 ^ 43
  /\ test_mul_reduce_array16 rnd_window stk_zero wide 100 16 0 = Err SignedOverflow.
Proof.
  split; [vm_compute; reflexivity|].
  apply (test_avx_mul16_filter_refuted rnd_window stk_zero 100 16 0 2 rnd_window_source).
  - split; reflexivity.
  - reflexivity.
  - intros i. reflexivity.
  - exact rnd_window_often.
  - reflexivity.
  - vm_compute. split; discriminate.
Qed.

(** C76. The speed tests of the two products in C draw factors without a filter: a pair out
    of range stops them. *)
Theorem test_avx_speed_products_refuted :
  forall rnd clk n t h r c i, (forall k, 0 <= rnd k < 2 ^ 31) -> 0 < n <= 2048 -> zlen t = 102400 ->
  (forall j, 0 <= j <= 3 -> zlen (h j) = 2048) -> (forall j, 0 <= j <= 2 -> all_in (- 2 ^ 31) (2 ^ 31 - 1) (h j)) -> 0 <= i < n ->
  let x := fun k => rnd k - 2 ^ 30 in let y := fun k => rnd k mod 2 ^ 16 - 2 ^ 15 in
  let s2 := speed_test2 rnd clk wide n mul_reduce_array16 (t, h, r, c) in
  let s3 := speed_test3 rnd clk wide n mul_reduce_array_h (t, h, r, c) in
  (~ (-8796042698752 <= x (r + i) * y (r + n + i) <= 8796093026303) -> s2 = Err AssertFail \/ s2 = Err SignedOverflow)
  /\ (~ (-8796042698752 <= x (r + i) * x (r + n + i) <= 8796093026303) -> s3 = Err AssertFail \/ s3 = Err SignedOverflow).
Proof. exact test_avx_speed_stops_L. Qed.
Print Assumptions test_avx_speed_products_refuted.

Example test_avx_speed_products_refuted_ex :
  (rnd_scalar 0 - 2 ^ 30) * (rnd_scalar 16 - 2 ^ 30) = 2 ^ 60
  /\ (rnd_scalar 0 - 2 ^ 30) * (rnd_scalar 16 mod 2 ^ 16 - 2 ^ 15) = 2 ^ 45
  /\ mul_reduce_array16 [-1073741824] 1 [-32768] = Err AssertFail
  /\ zlen (zeros NTESTS) = 102400 /\ zlen (zeros 2048) = 2048 /\ all_in (- 2 ^ 31) (2 ^ 31 - 1) (zeros 2048).
Proof.
  split; [reflexivity|]. split; [reflexivity|]. split; [vm_compute; reflexivity|].
  split; [apply zeros_len; discriminate|]. split; [apply zeros_len; discriminate|]. exact zeros_in.
Qed.

(** C76. The other speed tests run to the end for any random numbers: the functions can be
    called over and over on their own results. *)
Theorem test_avx_speed_tests_run :
  forall rnd clk n t h r c, (forall k, 0 <= rnd k < 2 ^ 31) -> 0 < n <= 2048 -> n mod 16 = 0 -> zlen t = 102400 ->
  (forall j, 0 <= j <= 3 -> zlen (h j) = 2048) -> (forall j, 0 <= j <= 2 -> all_in (- 2 ^ 31) (2 ^ 31 - 1) (h j)) ->
  (forall f, In f [reduce_array; reduce_array_twice; correct; shift_array; reduce_array_asm; reduce_array_asm2;
     reduce_array_twice_asm; reduce_array_twice_asm2; correct_asm; shift_array_asm] ->
     exists s', speed_test rnd clk wide n f (t, h, r, c) = Ok s')
  /\ (forall f, In f [mul_reduce_array16_asm; mul_reduce_array16_asm2] ->
     exists s', speed_test2 rnd clk wide n f (t, h, r, c) = Ok s')
  /\ (exists s', speed_test3 rnd clk wide n mul_reduce_array_asm_h (t, h, r, c) = Ok s')
  /\ (forall f, In f [scalar_mul_reduce_array; scalar_mul_reduce_array_asm] ->
     exists s', speed_test4 rnd clk wide n f (t, h, r, c) = Ok s').
Proof. exact test_avx_speed_tests_run_L. Qed.
Print Assumptions test_avx_speed_tests_run.

Example test_avx_speed_tests_run_ex :
  exists s', speed_test rnd_scalar (fun k => k) wide 16 correct (zeros NTESTS, fun _ => zeros 2048, 0, 0) = Ok s'.
Proof.
  destruct (test_avx_speed_tests_run rnd_scalar (fun k => k) 16 (zeros NTESTS) (fun _ => zeros 2048) 0 0 rnd_scalar_source)
    as [H _].
  - split; [reflexivity|discriminate].
  - reflexivity.
  - apply zeros_len. discriminate.
  - intros j _. apply zeros_len. discriminate.
  - intros j _. exact zeros_in.
  - apply H. right. right. left. reflexivity.
Qed.
