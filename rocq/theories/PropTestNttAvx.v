(** Property C84: the program src/test_ntt_avx.c. *)

From Coq Require Import ZArith List Bool Lia.
From Verif Require Import CSem Spec ModelRed ModelTestTables ModelTestNttAvx TestNttAvxFinal.
From Verif Require Import Exlib.
From Verif Require TestNttAvxElem TestNttAvxOut.
Import ListNotations.
Open Scope Z_scope.

(** C84. The 48 pairs of functions that the program compares: the assembly function and the C function return the same
    array, on every array whose elements are in the range of its random numbers. *)
Theorem avx_comparisons_agree :
  forall n f g, In (n, f, g)
  [(16, ntt_ct_rev2std16_asm, ntt_ct_rev2std16_base);
   (16, mulntt_ct_rev2std16_asm, mulntt_ct_rev2std16_base);
   (16, ntt_ct_std2rev16_asm, ntt_ct_std2rev16_base);
   (16, mulntt_ct_std2rev16_asm, mulntt_ct_std2rev16_base);
   (16, ntt_gs_rev2std16_asm, ntt_gs_rev2std16_base);
   (16, nttmul_gs_rev2std16_asm, nttmul_gs_rev2std16_base);
   (16, ntt_gs_std2rev16_asm, ntt_gs_std2rev16_base);
   (16, nttmul_gs_std2rev16_asm, nttmul_gs_std2rev16_base);
   (128, ntt_ct_rev2std128_asm, ntt_ct_rev2std128_base);
   (128, mulntt_ct_rev2std128_asm, mulntt_ct_rev2std128_base);
   (128, ntt_ct_std2rev128_asm, ntt_ct_std2rev128_base);
   (128, mulntt_ct_std2rev128_asm, mulntt_ct_std2rev128_base);
   (128, ntt_gs_rev2std128_asm, ntt_gs_rev2std128_base);
   (128, nttmul_gs_rev2std128_asm, nttmul_gs_rev2std128_base);
   (128, ntt_gs_std2rev128_asm, ntt_gs_std2rev128_base);
   (128, nttmul_gs_std2rev128_asm, nttmul_gs_std2rev128_base);
   (256, ntt_ct_rev2std256_asm, ntt_ct_rev2std256_base);
   (256, mulntt_ct_rev2std256_asm, mulntt_ct_rev2std256_base);
   (256, ntt_ct_std2rev256_asm, ntt_ct_std2rev256_base);
   (256, mulntt_ct_std2rev256_asm, mulntt_ct_std2rev256_base);
   (256, ntt_gs_rev2std256_asm, ntt_gs_rev2std256_base);
   (256, nttmul_gs_rev2std256_asm, nttmul_gs_rev2std256_base);
   (256, ntt_gs_std2rev256_asm, ntt_gs_std2rev256_base);
   (256, nttmul_gs_std2rev256_asm, nttmul_gs_std2rev256_base);
   (512, ntt_ct_rev2std512_asm, ntt_ct_rev2std512_base);
   (512, mulntt_ct_rev2std512_asm, mulntt_ct_rev2std512_base);
   (512, ntt_ct_std2rev512_asm, ntt_ct_std2rev512_base);
   (512, mulntt_ct_std2rev512_asm, mulntt_ct_std2rev512_base);
   (512, ntt_gs_rev2std512_asm, ntt_gs_rev2std512_base);
   (512, nttmul_gs_rev2std512_asm, nttmul_gs_rev2std512_base);
   (512, ntt_gs_std2rev512_asm, ntt_gs_std2rev512_base);
   (512, nttmul_gs_std2rev512_asm, nttmul_gs_std2rev512_base);
   (1024, ntt_ct_rev2std1024_asm, ntt_ct_rev2std1024_base);
   (1024, mulntt_ct_rev2std1024_asm, mulntt_ct_rev2std1024_base);
   (1024, ntt_ct_std2rev1024_asm, ntt_ct_std2rev1024_base);
   (1024, mulntt_ct_std2rev1024_asm, mulntt_ct_std2rev1024_base);
   (1024, ntt_gs_rev2std1024_asm, ntt_gs_rev2std1024_base);
   (1024, nttmul_gs_rev2std1024_asm, nttmul_gs_rev2std1024_base);
   (1024, ntt_gs_std2rev1024_asm, ntt_gs_std2rev1024_base);
   (1024, nttmul_gs_std2rev1024_asm, nttmul_gs_std2rev1024_base);
   (2048, ntt_ct_rev2std2048_asm, ntt_ct_rev2std2048_base);
   (2048, mulntt_ct_rev2std2048_asm, mulntt_ct_rev2std2048_base);
   (2048, ntt_ct_std2rev2048_asm, ntt_ct_std2rev2048_base);
   (2048, mulntt_ct_std2rev2048_asm, mulntt_ct_std2rev2048_base);
   (2048, ntt_gs_rev2std2048_asm, ntt_gs_rev2std2048_base);
   (2048, nttmul_gs_rev2std2048_asm, nttmul_gs_rev2std2048_base);
   (2048, ntt_gs_std2rev2048_asm, ntt_gs_std2rev2048_base);
   (2048, nttmul_gs_std2rev2048_asm, nttmul_gs_std2rev2048_base)] ->
  forall a, zlen a = n -> all_in (-200000) 199999 a -> exists x, f a = Ok x /\ g a = Ok x /\ zlen x = n.
Proof. exact (fun n f g H => proj2 (comparisons_agree n f g H)). Qed.
Print Assumptions avx_comparisons_agree.

Example avx_comparisons_agree_ex :
  let a := [199999; -200000; 199999; 199999; 3; -7; 12289; 0; 0; 1; -1; 150000; -150000; 24578; 5; -200000] in
  all_in (-200000) 199999 a
  /\ ntt_ct_rev2std16_asm a
     = Ok [236865; 548619; -193110; 423398; 340586; 325649; -314707; 251067; 587699; 258505; -594142; 396570; 434838; 467223;
           -498037; 528961]
  /\ ntt_ct_rev2std16_base a = ntt_ct_rev2std16_asm a
  /\ nttmul_gs_std2rev16_base a = nttmul_gs_std2rev16_asm a.
Proof.
  split; [check_all_in|]. split; [vm_compute; reflexivity|]. split; vm_compute; reflexivity.
Qed.

(** C84. Hence the 48 calls of cross_check succeed, whatever random() returns and whatever the local arrays contained at
    first. *)
Theorem avx_cross_checks_pass :
  forall rnd stk, (forall k, 0 <= rnd k < 2 ^ 31) -> (forall n r i, 0 <= n -> zlen (stk n r i) = n) ->
  forall n f g r, In (n, f, g)
  [(16, ntt_ct_rev2std16_asm, ntt_ct_rev2std16_base);
   (16, mulntt_ct_rev2std16_asm, mulntt_ct_rev2std16_base);
   (16, ntt_ct_std2rev16_asm, ntt_ct_std2rev16_base);
   (16, mulntt_ct_std2rev16_asm, mulntt_ct_std2rev16_base);
   (16, ntt_gs_rev2std16_asm, ntt_gs_rev2std16_base);
   (16, nttmul_gs_rev2std16_asm, nttmul_gs_rev2std16_base);
   (16, ntt_gs_std2rev16_asm, ntt_gs_std2rev16_base);
   (16, nttmul_gs_std2rev16_asm, nttmul_gs_std2rev16_base);
   (128, ntt_ct_rev2std128_asm, ntt_ct_rev2std128_base);
   (128, mulntt_ct_rev2std128_asm, mulntt_ct_rev2std128_base);
   (128, ntt_ct_std2rev128_asm, ntt_ct_std2rev128_base);
   (128, mulntt_ct_std2rev128_asm, mulntt_ct_std2rev128_base);
   (128, ntt_gs_rev2std128_asm, ntt_gs_rev2std128_base);
   (128, nttmul_gs_rev2std128_asm, nttmul_gs_rev2std128_base);
   (128, ntt_gs_std2rev128_asm, ntt_gs_std2rev128_base);
   (128, nttmul_gs_std2rev128_asm, nttmul_gs_std2rev128_base);
   (256, ntt_ct_rev2std256_asm, ntt_ct_rev2std256_base);
   (256, mulntt_ct_rev2std256_asm, mulntt_ct_rev2std256_base);
   (256, ntt_ct_std2rev256_asm, ntt_ct_std2rev256_base);
   (256, mulntt_ct_std2rev256_asm, mulntt_ct_std2rev256_base);
   (256, ntt_gs_rev2std256_asm, ntt_gs_rev2std256_base);
   (256, nttmul_gs_rev2std256_asm, nttmul_gs_rev2std256_base);
   (256, ntt_gs_std2rev256_asm, ntt_gs_std2rev256_base);
   (256, nttmul_gs_std2rev256_asm, nttmul_gs_std2rev256_base);
   (512, ntt_ct_rev2std512_asm, ntt_ct_rev2std512_base);
   (512, mulntt_ct_rev2std512_asm, mulntt_ct_rev2std512_base);
   (512, ntt_ct_std2rev512_asm, ntt_ct_std2rev512_base);
   (512, mulntt_ct_std2rev512_asm, mulntt_ct_std2rev512_base);
   (512, ntt_gs_rev2std512_asm, ntt_gs_rev2std512_base);
   (512, nttmul_gs_rev2std512_asm, nttmul_gs_rev2std512_base);
   (512, ntt_gs_std2rev512_asm, ntt_gs_std2rev512_base);
   (512, nttmul_gs_std2rev512_asm, nttmul_gs_std2rev512_base);
   (1024, ntt_ct_rev2std1024_asm, ntt_ct_rev2std1024_base);
   (1024, mulntt_ct_rev2std1024_asm, mulntt_ct_rev2std1024_base);
   (1024, ntt_ct_std2rev1024_asm, ntt_ct_std2rev1024_base);
   (1024, mulntt_ct_std2rev1024_asm, mulntt_ct_std2rev1024_base);
   (1024, ntt_gs_rev2std1024_asm, ntt_gs_rev2std1024_base);
   (1024, nttmul_gs_rev2std1024_asm, nttmul_gs_rev2std1024_base);
   (1024, ntt_gs_std2rev1024_asm, ntt_gs_std2rev1024_base);
   (1024, nttmul_gs_std2rev1024_asm, nttmul_gs_std2rev1024_base);
   (2048, ntt_ct_rev2std2048_asm, ntt_ct_rev2std2048_base);
   (2048, mulntt_ct_rev2std2048_asm, mulntt_ct_rev2std2048_base);
   (2048, ntt_ct_std2rev2048_asm, ntt_ct_std2rev2048_base);
   (2048, mulntt_ct_std2rev2048_asm, mulntt_ct_std2rev2048_base);
   (2048, ntt_gs_rev2std2048_asm, ntt_gs_rev2std2048_base);
   (2048, nttmul_gs_rev2std2048_asm, nttmul_gs_rev2std2048_base);
   (2048, ntt_gs_std2rev2048_asm, ntt_gs_std2rev2048_base);
   (2048, nttmul_gs_std2rev2048_asm, nttmul_gs_std2rev2048_base)] ->
  cross_check rnd stk n f g r = Ok (r + 100000 * n).
Proof. exact cross_checks_pass_L. Qed.
Print Assumptions avx_cross_checks_pass.

Example avx_cross_checks_pass_ex :
  (forall k, 0 <= rnd_ex k < 2 ^ 31) /\ (forall n r i, 0 <= n -> zlen (stk_ex n r i) = n)
  /\ random_array rnd_ex [9; 9; 9; 9] 4 7 = Ok ([-144567; -136648; -128729; -120810], 11)
  /\ cross_check rnd_ex stk_ex 128 mulntt_ct_std2rev128_asm mulntt_ct_std2rev128_base 7 = Ok 12800007.
Proof.
  split; [exact rnd_ex_range|]. split; [exact stk_ex_len|]. split; [vm_compute; reflexivity|].
  apply (avx_cross_checks_pass rnd_ex stk_ex rnd_ex_range stk_ex_len). apply (nth_error_In _ 11%nat). reflexivity.
Qed.

(** C84. A call of cross_check that succeeds has compared the two functions on 100000 arrays, whose elements are the random
    numbers reduced to -200000 .. 199999. *)
Theorem avx_cross_check_certifies :
  forall rnd stk n f g r r', (forall k, 0 <= rnd k < 2 ^ 31) -> 0 <= n < 2 ^ 32 ->
  (forall n r i, 0 <= n -> zlen (stk n r i) = n) ->
  (forall a b, zlen a = n -> f a = Ok b \/ g a = Ok b -> zlen b = n) ->
  cross_check rnd stk n f g r = Ok r' ->
  r' = r + 100000 * n /\ forall j, 0 <= j < 100000 -> exists a x y, zlen a = n
    /\ (forall i, 0 <= i < n -> at_ a i = rnd (r + n * j + i) mod 400000 - 200000)
    /\ f a = Ok x /\ g a = Ok y /\ forall i, 0 <= i < n -> at_ x i = at_ y i.
Proof. exact avx_cross_check_certifies_L. Qed.
Print Assumptions avx_cross_check_certifies.

Example avx_cross_check_certifies_ex :
  (forall a b : list Z, zlen a = 4 -> Ok a = Ok b \/ Ok a = Ok b -> zlen b = 4)
  /\ cross_check rnd_ex stk_ex 4 (fun a => Ok a) (fun a => Ok a) 7 = Ok (7 + 100000 * 4).
Proof.
  split; [intros a b H [E|E]; injection E as <-; exact H|].
  apply (TestNttAvxElem.cross_check_ok rnd_ex rnd_ex_range stk_ex); [lia|intros i; apply stk_ex_len; lia|].
  intros a La _. exists a. repeat split. exact La.
Qed.

(** C84. The program never reports a difference (it never calls exit), whatever random() and cpucycles() return, and
    without AVX2 it returns 0. *)
Theorem test_ntt_avx_never_reports :
  forall rnd clk stk, (forall k, 0 <= rnd k < 2 ^ 31) -> (forall n r i, 0 <= n -> zlen (stk n r i) = n) ->
  main rnd clk stk true <> Err Exited /\ main rnd clk stk false = Ok 0.
Proof. exact never_reports_L. Qed.
Print Assumptions test_ntt_avx_never_reports.

(** exit is reached on a difference: here the C function for the other order is given *)
Example test_ntt_avx_never_reports_ex :
  (forall k, 0 <= rnd_ex k < 2 ^ 31) /\ (forall n r i, 0 <= n -> zlen (stk_ex n r i) = n)
  /\ (exists a x y, random_array rnd_ex (stk_ex 16 0 0) 16 0 = Ok (a, 16) /\ ntt_ct_rev2std16_asm a = Ok x
      /\ ntt_ct_std2rev16_base a = Ok y /\ ModelTests.equal_arrays x y 16 = Ok false)
  /\ ModelTests.expect false = Err Exited.
Proof.
  split; [exact rnd_ex_range|]. split; [exact stk_ex_len|]. split; [|reflexivity].
  do 3 eexists. split; [vm_compute; reflexivity|]. split; [vm_compute; reflexivity|]. split; vm_compute; reflexivity.
Qed.

(** C84. But the measurements apply the C functions 102400 times to the same array without a reduction, with random
    constants in place of the tables.  When random() returns 0, an int32_t operation of the first measurement overflows in
    the seventh call, so that main has undefined behaviour. *)
Theorem test_ntt_avx_defined_refuted :
  forall clk stk, (forall n r i, 0 <= n -> zlen (stk n r i) = n) ->
  main (fun _ => 0) clk stk true = Err SignedOverflow.
Proof. exact overflows_L. Qed.
Print Assumptions test_ntt_avx_defined_refuted.

(** The array of the first measurement after six calls *)
Example test_ntt_avx_defined_refuted_ex :
  (forall n r i, 0 <= n -> zlen (stk_ex n r i) = n)
  /\ ntt_red_ct_rev2std (repeat (-819200000) 16)
       16 (repeat (-32768) 16) = Err SignedOverflow.
Proof. split; [exact stk_ex_len|vm_compute; reflexivity]. Qed.

(** C84. That is the worst that can happen: whatever random() and cpucycles() return, main returns 0 or stops at a signed
    overflow or at a failed assertion of a C transform in a measurement.  It never accesses an array out of bounds, never
    loops for ever, never divides by zero and never calls exit. *)
Theorem test_ntt_avx_outcomes :
  forall rnd clk stk, (forall k, 0 <= rnd k < 2 ^ 31) -> (forall n r i, 0 <= n -> zlen (stk n r i) = n) ->
  main rnd clk stk true = Ok 0 \/ main rnd clk stk true = Err SignedOverflow \/ main rnd clk stk true = Err AssertFail.
Proof. exact TestNttAvxOut.test_ntt_avx_outcomes_L. Qed.
Print Assumptions test_ntt_avx_outcomes.

(** A failed assertion can be reached by the C transforms: a product of 64 bits may be too large
    for one reduction.  An array that is too short would be an access out of bounds. *)
Example test_ntt_avx_outcomes_ex :
  (forall k, 0 <= rnd_ex k < 2 ^ 31) /\ (forall n r i, 0 <= n -> zlen (stk_ex n r i) = n)
  /\ ntt_red_ct_rev2std (repeat 0 15 ++ [2 ^ 31 - 1]) 16 (repeat (-32768) 16) = Err AssertFail
  /\ ntt_red_ct_rev2std (repeat 0 8) 16 (repeat 1 16) = Err OutOfBounds.
Proof.
  split; [exact rnd_ex_range|]. split; [exact stk_ex_len|]. split; vm_compute; reflexivity.
Qed.
