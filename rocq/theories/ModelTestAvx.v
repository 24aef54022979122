(** src/test_avx.c.

    As in ModelTests: exit(1) is [Err Exited], the values returned by random() are a
    parameter, [rnd i] for call number [i], those of cpucycles() too, [clk i], and printing
    is not modelled.  The local arrays of size n are not initialised: [stk n] gives their
    contents, numbered in the order of their declaration.

    Two more parameters.  [twice] computes [2 * n] on line 129: the program is the instance
    [mul32 2]; the instance [wide] is the program with line 129 repaired.  [tries] bounds the
    number of rounds of the loop on lines 388-399, which draws until it is satisfied.

    equal_arrays (lines 111-118), average_time (37-46), median_time (49-61) and what
    follows a measured loop (214-222) are those of the other test programs. *)

From Coq Require Import ZArith List Bool.
From Verif Require Import CSem AvxSem ModelRed ModelAvx ModelSort ModelTests.
Import ListNotations.
Open Scope Z_scope.

(** Constants of stdint.h; [NTESTS] (line 32) and [Q] (line 20) are those of ModelTests *)
Definition INT16_MIN := -32768.
Definition INT16_MAX := 32767.
Definition INT32_MAX := 2147483647.
Definition INT32_MIN := -2147483648.

(** [2 * n] in 64 bits *)
Definition wide (n : Z) : res Z := Ok (2 * n).

(** The condition on lines 393 and 413 *)
Definition in_bounds (z : Z) : bool := (-8796042698752 <=? z) && (z <=? 8796093026303).

Section Program.
Variables (rnd clk : Z -> Z) (stk : Z -> heap).
Variables (twice : Z -> res Z) (tries : nat).

(** random_coeff, lines 124-133; random() is a long, so that the remainder is computed in
    64 bits; [r] is the number of calls of random() so far *)
Definition random_coeff (n r : Z) : res (Z * Z) :=
  do _ <- cassert (0 <? n);
  do m <- twice n;
  do x <- rem64 (rnd r) m;
  let x := to_i32 x in
  do x <- sub32 x n;
  do _ <- cassert ((- n <=? x) && (x <=? n - 1));
  Ok (x, r + 1).

(** random_array, lines 139-145 *)
Definition random_array (a : list Z) (n r : Z) : res (list Z * Z) :=
  loop n (fun i '(a, r) =>
    do '(x, r) <- random_coeff 1073741824 r;
    do a <- wr a i x;
    Ok (a, r)) (a, r).

(** random_array16, lines 148-154 *)
Definition random_array16 (p : list Z) (n r : Z) : res (list Z * Z) :=
  loop n (fun i '(p, r) =>
    do '(x, r) <- random_coeff 32768 r;
    do p <- wr p i (to_i16 x);
    Ok (p, r)) (p, r).

(** copy_array, lines 159-165 *)
Definition copy_array (b a : list Z) (n : Z) : res (list Z) :=
  loop n (fun i b =>
    do x <- rd a i;
    wr b i x) b.

(** cross_check, lines 173-192: the number of calls of random() at the end *)
Definition cross_check (n : Z) (f g : list Z -> Z -> res (list Z)) (r : Z) : res Z :=
  do '(_, _, r) <- loop 10000 (fun _ '(a, b, r) =>
    do '(a, r) <- random_array a n r;
    do b <- copy_array b a n;
    do a <- f a n;
    do b <- g b n;
    do ok <- equal_arrays a b n;
    do _ <- expect ok;
    Ok (a, b, r)) (stk n 0, stk n 1, r);
  Ok r.

(** ** Correction *)

(** random_elem_for_correct, lines 298-305 *)
Definition random_elem_for_correct (r : Z) : res (Z * Z) :=
  do m <- mul32 3 Q;
  do x <- rem64 (rnd r) m;
  let x := to_i32 x in
  do x <- sub32 x Q;
  do _ <- cassert ((- Q <=? x) && (x <=? 2 * Q - 1));
  Ok (x, r + 1).

(** random_array_for_correct, lines 307-313 *)
Definition random_array_for_correct (a : list Z) (n r : Z) : res (list Z * Z) :=
  loop n (fun i '(a, r) =>
    do '(x, r) <- random_elem_for_correct r;
    do a <- wr a i x;
    Ok (a, r)) (a, r).

(** test_correction, lines 315-338, and test_shift, lines 353-376, for the function that
    draws an array, the assembly function and the C function *)
Definition test_against (n : Z) (draw : list Z -> Z -> Z -> res (list Z * Z)) (f g : list Z -> Z -> res (list Z))
  (r : Z) : res Z :=
  do '(_, _, _, r) <- loop 10000 (fun _ '(a, b, c, r) =>
    do '(a, r) <- draw a n r;
    do b <- copy_array b a n;
    do c <- copy_array c a n;
    do a <- f a n;
    do b <- g b n;
    do ok <- equal_arrays a b n;
    do _ <- expect ok;
    Ok (a, b, c, r)) (stk n 0, stk n 1, stk n 2, r);
  Ok r.

(** test_correction, lines 315-338 *)
Definition test_correction (n r : Z) : res Z := test_against n random_array_for_correct correct_asm normalize r.

(** random_array_for_shift, lines 345-351 *)
Definition random_array_for_shift (a : list Z) (n r : Z) : res (list Z * Z) :=
  loop n (fun i '(a, r) =>
    do x <- rem64 (rnd r) Q;
    do a <- wr a i (to_i32 x);
    Ok (a, r + 1)) (a, r).

(** test_shift, lines 353-376 *)
Definition test_shift (n r : Z) : res Z := test_against n random_array_for_shift shift_array_asm shift_array r.

(** ** Products *)

(** random_arrays_for_mul_reduce16, lines 382-400; the state of the loop is i, a, p, r *)
Definition random_arrays_for_mul_reduce16 (a p : list Z) (n r : Z) : res (list Z * list Z * Z) :=
  do '(_, a, p, r) <- cwhile tries (fun '(i, _, _, _) => i <? n) (fun '(i, a, p, r) =>
    do '(x, r) <- random_coeff 1073741824 r;
    do '(y, r) <- random_coeff 32768 r;
    do _ <- cassert ((INT16_MIN <=? y) && (y <=? INT16_MAX));
    do z <- mul64 x y;
    if in_bounds z then
      do a <- wr a i x;
      do p <- wr p i (to_i16 y);
      Ok (u32 (i + 1), a, p, r)
    else Ok (i, a, p, r)) (0, a, p, r);
  Ok (a, p, r).

(** The loop on lines 413-417; y reaches 0 or -1 after 32 rounds at most *)
Definition shrink (x y : Z) : res Z :=
  do z <- mul64 x y;
  do '(y, _) <- cwhile (fuel 32) (fun '(_, z) => negb (in_bounds z)) (fun '(y, _) =>
    let y := Z.shiftr y 1 in
    do z <- mul64 x y;
    Ok (y, z)) (y, z);
  Ok y.

(** random_arrays_for_mul_reduce, lines 402-421 (the loop on i advances once in every round) *)
Definition random_arrays_for_mul_reduce (a b : list Z) (n r : Z) : res (list Z * list Z * Z) :=
  loop n (fun i '(a, b, r) =>
    do '(x, r) <- random_coeff 1073741824 r;
    do '(y, r) <- random_coeff 1073741824 r;
    do y <- shrink x y;
    do a <- wr a i x;
    do b <- wr b i y;
    Ok (a, b, r)) (a, b, r).

(** test_mul_reduce_array16, lines 423-449; the arrays a, b, c, p *)
Definition test_mul_reduce_array16 (n r : Z) : res Z :=
  do '(_, _, _, _, r) <- loop 10000 (fun _ '(a, b, c, p, r) =>
    do '(a, p, r) <- random_arrays_for_mul_reduce16 a p n r;
    do b <- copy_array b a n;
    do c <- copy_array c a n;
    do a <- mul_reduce_array16_asm a n p;
    do b <- mul_reduce_array16 b n p;
    do ok <- equal_arrays a b n;
    do _ <- expect ok;
    Ok (a, b, c, p, r)) (stk n 0, stk n 1, stk n 2, stk n 3, r);
  Ok r.

(** test_mul_reduce_array, lines 451-477; the arrays a, b, c, d are 0, 1, 2, 3 *)
Definition test_mul_reduce_array (n r : Z) : res Z :=
  do '(_, r) <- loop 10000 (fun _ '(h, r) =>
    do '(b, c, r) <- random_arrays_for_mul_reduce (h 1) (h 2) n r;
    let h := hset (hset h 1 b) 2 c in
    do h <- mul_reduce_array_asm_h h 0 n 1 2;
    do h <- mul_reduce_array_h h 3 n 1 2;
    do ok <- equal_arrays (h 0) (h 3) n;
    do _ <- expect ok;
    Ok (h, r)) (stk n, r);
  Ok r.

(** ** Product by a scalar *)

(** random_array_for_scalar_mul, lines 484-502: the array and the scalar.  min and max are
    the second and third parts of the state of the first loop; the scalar reaches 0 or -1
    after 32 rounds at most; the products with min and max are below 2^62. *)
Definition random_array_for_scalar_mul (a : list Z) (n r : Z) : res (list Z * Z * Z) :=
  do '(a, min, max, r) <- loop n (fun i '(a, min, max, r) =>
    do '(x, r) <- random_coeff 1073741824 r;
    let min := if x <? min then x else min in
    let max := if max <? x then x else max in
    do a <- wr a i x;
    Ok (a, min, max, r)) (a, INT32_MAX, INT32_MIN, r);
  do '(x, r) <- random_coeff 1073741824 r;
  do x <- cwhile (fuel 32) (fun x => (x * min <? -8796042698752) || (8796093026303 <? x * max)) (fun x =>
    Ok (Z.shiftr x 1)) x;
  Ok (a, x, r).

(** test_scalar_mul_reduce_array, lines 504-532; the arrays a, b, d *)
Definition test_scalar_mul_reduce_array (n r : Z) : res Z :=
  do '(_, _, _, r) <- loop 10000 (fun _ '(a, b, d, r) =>
    do '(a, c, r) <- random_array_for_scalar_mul a n r;
    do b <- copy_array b a n;
    do d <- copy_array d a n;
    do a <- scalar_mul_reduce_array_asm a n c;
    do b <- scalar_mul_reduce_array b n c;
    do ok <- equal_arrays a b n;
    do _ <- expect ok;
    Ok (a, b, d, r)) (stk n 0, stk n 1, stk n 2, r);
  Ok r.

(** ** Speed tests *)

(** The globals: t, the arrays a, b, d, p as 0, 1, 2, 3, and the number of calls of
    random() and of cpucycles() *)
Definition globals : Type := list Z * heap * Z * Z.

(** Lines 212-222, 235-245, 258-268, 279-289 for the call [f] *)
Definition measured (f : heap -> res heap) (s : globals) : res globals :=
  let '(t, h, r, c) := s in
  do '(t, h, c) <- loop NTESTS (fun i '(t, h, c) =>
    do t <- wr t i (clk c);
    do h <- f h;
    Ok (t, h, c + 1)) (t, h, c);
  do '(t, c) <- report clk t c;
  Ok (t, h, r, c).

(** [random_array(x, n)] for the array [x] of the globals *)
Definition fill_random (x n : Z) (s : globals) : res globals :=
  let '(t, h, r, c) := s in
  do '(a, r) <- random_array (h x) n r;
  Ok (t, hset h x a, r, c).

(** [f(a, ...)] for the array a of the globals *)
Definition on_a (f : list Z -> res (list Z)) (h : heap) : res heap :=
  do a <- f (h 0);
  Ok (hset h 0 a).

(** speed_test, lines 206-225 *)
Definition speed_test (n : Z) (f : list Z -> Z -> res (list Z)) (s : globals) : res globals :=
  do s <- fill_random 0 n s;
  measured (on_a (fun a => f a n)) s.

(** speed_test2, lines 228-248 *)
Definition speed_test2 (n : Z) (f : list Z -> Z -> list Z -> res (list Z)) (s : globals) : res globals :=
  do s <- fill_random 0 n s;
  let '(t, h, r, c) := s in
  do '(p, r) <- random_array16 (h 3) n r;
  measured (fun h => on_a (fun a => f a n (h 3)) h) (t, hset h 3 p, r, c).

(** speed_test3, lines 251-271 *)
Definition speed_test3 (n : Z) (f : heap -> Z -> Z -> Z -> Z -> res heap) (s : globals) : res globals :=
  do s <- fill_random 1 n s;
  do s <- fill_random 2 n s;
  measured (fun h => f h 0 n 1 2) s.

(** speed_test4, lines 274-292 *)
Definition speed_test4 (n : Z) (f : list Z -> Z -> Z -> res (list Z)) (s : globals) : res globals :=
  do s <- fill_random 0 n s;
  measured (on_a (fun a => f a n 273)) s.

(** The body of the first loop of run_tests, lines 541-550 *)
Definition compare_all (n r : Z) : res Z :=
  do r <- cross_check n reduce_array_asm reduce_array r;
  do r <- cross_check n reduce_array_asm2 reduce_array r;
  do r <- cross_check n reduce_array_twice_asm reduce_array_twice r;
  do r <- cross_check n reduce_array_twice_asm2 reduce_array_twice r;
  do r <- test_correction n r;
  do r <- test_shift n r;
  do r <- test_mul_reduce_array16 n r;
  do r <- test_mul_reduce_array n r;
  test_scalar_mul_reduce_array n r.

(** The body of the second loop of run_tests, lines 554-572 *)
Definition measure_all (n : Z) (s : globals) : res globals :=
  do s <- speed_test n reduce_array s;
  do s <- speed_test n reduce_array_twice s;
  do s <- speed_test n correct s;
  do s <- speed_test n shift_array s;
  do s <- speed_test2 n mul_reduce_array16 s;
  do s <- speed_test3 n mul_reduce_array_h s;
  do s <- speed_test4 n scalar_mul_reduce_array s;
  do s <- speed_test n reduce_array_asm s;
  do s <- speed_test n reduce_array_asm2 s;
  do s <- speed_test n reduce_array_twice_asm s;
  do s <- speed_test n reduce_array_twice_asm2 s;
  do s <- speed_test n correct_asm s;
  do s <- speed_test n shift_array_asm s;
  do s <- speed_test2 n mul_reduce_array16_asm s;
  do s <- speed_test2 n mul_reduce_array16_asm2 s;
  do s <- speed_test3 n mul_reduce_array_asm_h s;
  speed_test4 n scalar_mul_reduce_array_asm s.

(** The globals at first, lines 34 and 201-204: all 0 *)
Definition zeros (n : Z) : list Z := repeat 0 (Z.to_nat n).

(** run_tests, lines 537-574 *)
Definition run_tests : res unit :=
  do r <- cfor (fuel 8) 16 (fun n => n <=? 2048) (fun n => u32 (n + n)) compare_all 0;
  do _ <- cfor (fuel 8) 16 (fun n => n <=? 2048) (fun n => u32 (n + n)) measure_all
    (zeros NTESTS, fun _ => zeros 2048, r, 0);
  Ok tt.

(** main, lines 576-584: the value it returns; [avx2] is what avx2_supported returns *)
Definition main (avx2 : bool) : res Z :=
  do _ <- (if avx2 then run_tests else Ok tt);
  Ok 0.
End Program.
