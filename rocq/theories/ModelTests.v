(** The test programs test_ntt{16,256,512,1024}.c, test_naive_ntt{16,256,512,1024}.c,
    test_ntt_red{16,256,512,1024}.c and test_ntt_red_asm{16,256,512,1024}.c of src.

    The sixteen files are copies of one program.  Besides names and the size they
    differ in what is done to the array around the transforms, which is the record
    [variant] below.  Lines are those of test_ntt_red1024.c unless stated otherwise.

    exit(1) is [Err Exited].  The values returned by random() are a parameter: [rnd i]
    for call number [i].  The values returned by cpucycles() are a parameter too:
    [clk i].  Local arrays are not initialised: their contents are a parameter,
    [stk].  Printing is not modelled. *)

From Coq Require Import ZArith List Bool.
From Verif Require Import CSem ModelNtt ModelNaive ModelRed ModelGen ModelProducts ModelAvxProd ModelSort.
Import ListNotations.
Open Scope Z_scope.

(** Constants, lines 31, 66 *)
Definition NTESTS := 102400.
Definition Q := 12289.

(** [for (i = 0; i < n; i++) { if (...) return false; ... } return true;]: [step i s]
    is [None] when the body returns *)
Fixpoint scan {S : Type} (f : nat) (i n : Z) (step : Z -> S -> res (option S)) (s : S) : res bool :=
  match f with
  | O => Err NoFuel
  | Datatypes.S f =>
      if i <? n then
        do r <- step i s;
        match r with
        | None => Ok false
        | Some s => scan f (u32 (i + 1)) n step s
        end
      else Ok true
  end.

(** [for (i = 0; i < n; i++) body] *)
Definition loop {S : Type} (n : Z) (body : Z -> S -> res S) (s : S) : res S :=
  cfor (fuel n) 0 (fun i => i <? n) (fun i => u32 (i + 1)) body s.

(** [if (!b) { print; exit(1); }] *)
Definition expect (b : bool) : res unit := if b then Ok tt else Err Exited.

(** ** Utilities *)

(** equal_arrays, lines 95-102 *)
Definition equal_arrays (a b : list Z) (n : Z) : res bool :=
  scan (fuel n) 0 n (fun i _ =>
    do x <- rd a i;
    do y <- rd b i;
    Ok (if x =? y then Some tt else None)) tt.

(** simple_poly, lines 107-116 *)
Definition simple_poly (a : list Z) (k n : Z) : res (list Z) :=
  do _ <- cassert (k <? n);
  do a <- loop n (fun i a => wr a i 0) a;
  wr a k 1.

(** ** Polynomials 1, X, X^2, ... *)

(** power, lines 155-167 *)
Definition power (x k : Z) : res Z :=
  do '(_, _, y) <- cwhile (fuel 32) (fun '(_, k, _) => negb (k =? 0)) (fun '(x, k, y) =>
    do y <- (if negb (Z.land k 1 =? 0) then do z <- mul32 y x; rem32 z Q else Ok y);
    let k := Z.shiftr k 1 in
    do z <- mul32 x x;
    do x <- rem32 z Q;
    Ok (x, k, y)) (x, k, 1);
  Ok y.

(** check_ntt_simple, lines 175-186 *)
Definition check_ntt_simple (a : list Z) (n k omega : Z) : res bool :=
  do y <- power omega k;
  scan (fuel n) 0 n (fun i x =>
    do v <- rd a i;
    if v =? x then
      do z <- mul32 x y;
      do x <- rem32 z Q;
      Ok (Some x)
    else Ok None) 1.

(** check_ntt_ntt_simple, lines 194-206: [a[i] != n] compares unsigned integers *)
Definition check_ntt_ntt_simple (a : list Z) (n k : Z) : res bool :=
  do _ <- cassert (k <? n);
  let j := if k =? 0 then 0 else u32 (n - k) in
  scan (fuel n) 0 n (fun i _ =>
    do v <- rd a i;
    Ok (if ((i =? j) && negb (u32 v =? n)) || (negb (i =? j) && negb (v =? 0)) then None else Some tt)) tt.

(** equal_simple_poly, lines 314-335 *)
Definition equal_simple_poly (c : list Z) (n m : Z) : res bool :=
  do _ <- cassert (m <? u32 (2 * n));
  let '(j, val) := if n <=? m then (u32 (m - n), Q - 1) else (m, 1) in
  scan (fuel n) 0 n (fun i _ =>
    do v <- rd c i;
    Ok (if ((i =? j) && negb (v =? val)) || (negb (i =? j) && negb (v =? 0)) then None else Some tt)) tt.

(** ntt1024_normalize, test_naive_ntt1024.c 150-156 *)
Definition ntt_normalize (a : list Z) (n : Z) : res (list Z) :=
  loop n (fun i a =>
    do v <- rd a i;
    if v <? 0 then do v <- add32 v Q; wr a i v else Ok a) a.

(** What the copies of the program do to the array before and after the transform in
    apply_ntt1024 (for test_naive_ntt1024.c, after the calls of apply_ntt1024), before the forward transform, between the two transforms and after
    the inverse transform in check_inverse, and after the product in
    test_simple_product *)
Record variant := {
  before : list Z -> res (list Z);
  after : list Z -> res (list Z);
  before_forward : list Z -> res (list Z);
  between : list Z -> res (list Z);
  after_inverse : list Z -> res (list Z);
  after_product : list Z -> res (list Z)
}.

(** The functions under test: the transforms of the public header with the constants
    omega and inv_omega, and the products *)
Record functions := {
  f_ct_rev2std : list Z -> res (list Z);
  f_gs_rev2std : list Z -> res (list Z);
  f_ct_std2rev : list Z -> res (list Z);
  f_gs_std2rev : list Z -> res (list Z);
  f_intt_ct_rev2std : list Z -> res (list Z);
  f_intt_gs_rev2std : list Z -> res (list Z);
  f_intt_ct_std2rev : list Z -> res (list Z);
  f_intt_gs_std2rev : list Z -> res (list Z);
  f_omega : Z;
  f_inv_omega : Z;
  f_product1 : heap -> Z -> Z -> Z -> res heap;
  f_product2 : heap -> Z -> Z -> Z -> res heap;
  f_product3 : heap -> Z -> Z -> Z -> res heap;
  f_product4 : heap -> Z -> Z -> Z -> res heap;
  f_product5 : heap -> Z -> Z -> Z -> res heap
}.

Section Program.
Variables (rnd clk : Z -> Z) (stk : heap).
(** The size, and the table of bit-reversal pairs with its length *)
Variables (n : Z) (bt : list (Z * Z)) (npairs : Z).
Variables (V : variant) (X : functions).

(** random_coeff, lines 121-127; [r] is the number of calls of random() so far *)
Definition random_coeff (r : Z) : res (Z * Z) :=
  let x := to_i32 (Z.rem (rnd r) Q) in
  do _ <- cassert ((0 <=? x) && (x <=? Q - 1));
  Ok (x, r + 1).

(** random_poly, lines 132-138 *)
Definition random_poly (a : list Z) (r : Z) : res (list Z * Z) :=
  loop n (fun i '(a, r) =>
    do '(x, r) <- random_coeff r;
    do a <- wr a i x;
    Ok (a, r)) (a, r).

(** ntt1024_bitrev_shuffle, lines 143-145 *)
Definition ntt_bitrev_shuffle (a : list Z) : res (list Z) := shuffle_with_table a bt npairs.

(** apply_ntt1024, lines 214-226 *)
Definition apply_ntt (a : list Z) (f : list Z -> res (list Z)) (std2rev : bool) : res (list Z) :=
  if std2rev then
    do a <- before V a;
    do a <- f a;
    do a <- ntt_bitrev_shuffle a;
    after V a
  else
    do a <- before V a;
    do a <- ntt_bitrev_shuffle a;
    do a <- f a;
    after V a.

(** test_simple_polys, lines 236-261 *)
Definition test_simple_polys (f : list Z -> res (list Z)) (omega : Z) (std2rev : bool) : res unit :=
  do _ <- loop n (fun j a =>
    do a <- simple_poly a j n;
    do a <- apply_ntt a f std2rev;
    do ok <- check_ntt_simple a n j omega;
    do _ <- expect ok;
    do a <- apply_ntt a f std2rev;
    do ok <- check_ntt_ntt_simple a n j;
    do _ <- expect ok;
    Ok a) (stk 0);
  Ok tt.

(** ** Forward and inverse *)

(** check_inverse, lines 267-293 *)
Definition check_inverse (a : list Z) (forward inverse : list Z -> res (list Z)) : res unit :=
  do b <- loop n (fun i b =>
    do x <- rd a i;
    wr b i x) (stk 1);
  do b <- before_forward V b;
  do b <- forward b;
  do b <- between V b;
  do b <- inverse b;
  do b <- after_inverse V b;
  do ok <- equal_arrays a b n;
  expect ok.

(** test_forward_inverse, lines 295-307 *)
Definition test_forward_inverse (forward inverse : list Z -> res (list Z)) (r : Z) : res Z :=
  do '(_, r) <- loop 1000 (fun _ '(a, r) =>
    do '(a, r) <- random_poly a r;
    do _ <- check_inverse a forward inverse;
    Ok (a, r)) (stk 0, r);
  Ok r.

(** ** Products *)

(** test_simple_product, lines 338-351; the arrays a, b, c are 0, 1, 2 *)
Definition test_simple_product (f : heap -> Z -> Z -> Z -> res heap) (i m : Z) : res unit :=
  do a <- simple_poly (stk 0) i n;
  do b <- simple_poly (stk 1) m n;
  do h <- f (hset (hset stk 0 a) 1 b) 2 0 1;
  do c <- after_product V (h 2);
  do ok <- equal_simple_poly c n (u32 (i + m));
  expect ok.

(** test_simple_products, lines 353-364 *)
Definition test_simple_products (f : heap -> Z -> Z -> Z -> res heap) : res unit :=
  loop n (fun i _ => loop n (fun m _ => test_simple_product f i m) tt) tt.

(** The tests called by main, lines 426-447; [r] is the number of calls of random() *)
Definition tests (r : Z) : res Z :=
  do _ <- test_simple_polys (f_ct_rev2std X) (f_omega X) false;
  do _ <- test_simple_polys (f_gs_rev2std X) (f_omega X) false;
  do _ <- test_simple_polys (f_ct_std2rev X) (f_omega X) true;
  do _ <- test_simple_polys (f_gs_std2rev X) (f_omega X) true;
  do _ <- test_simple_polys (f_intt_ct_rev2std X) (f_inv_omega X) false;
  do _ <- test_simple_polys (f_intt_gs_rev2std X) (f_inv_omega X) false;
  do _ <- test_simple_polys (f_intt_ct_std2rev X) (f_inv_omega X) true;
  do _ <- test_simple_polys (f_intt_gs_std2rev X) (f_inv_omega X) true;
  do r <- test_forward_inverse (f_ct_std2rev X) (f_intt_ct_rev2std X) r;
  do r <- test_forward_inverse (f_intt_ct_rev2std X) (f_ct_std2rev X) r;
  do r <- test_forward_inverse (f_ct_std2rev X) (f_intt_gs_rev2std X) r;
  do r <- test_forward_inverse (f_intt_gs_rev2std X) (f_ct_std2rev X) r;
  do r <- test_forward_inverse (f_gs_std2rev X) (f_intt_gs_rev2std X) r;
  do r <- test_forward_inverse (f_intt_gs_rev2std X) (f_gs_std2rev X) r;
  do _ <- test_simple_products (f_product1 X);
  do _ <- test_simple_products (f_product2 X);
  do _ <- test_simple_products (f_product3 X);
  do _ <- test_simple_products (f_product4 X);
  do _ <- test_simple_products (f_product5 X);
  Ok r.

(** ** Speed tests *)

(** average_time, lines 36-45 *)
Definition average_time (t : list Z) : res Z :=
  do s <- loop NTESTS (fun i s => do x <- rd t i; Ok (u64 (s + x))) 0;
  Ok (s / NTESTS).

(** median_time, lines 48-60 *)
Definition median_time (t : list Z) : res (list Z * Z) :=
  do t <- sort t NTESTS;
  do _ <- cfor (fuel NTESTS) 1 (fun i => i <? NTESTS) (fun i => u32 (i + 1)) (fun i _ =>
    do x <- rd t i;
    do y <- rd t (u32 (i - 1));
    expect (negb (x <? y))) tt;
  do m <- rd t (NTESTS / 2);
  Ok (t, m).

(** The statements after the measured loop, lines 383-390, 412-419; [c] is the number of
    calls of cpucycles() so far *)
Definition report (t : list Z) (c : Z) : res (list Z * Z) :=
  do t <- loop (NTESTS - 1) (fun i t =>
    do x <- rd t (u32 (i + 1));
    do y <- rd t i;
    wr t i (u64 (x - y))) t;
  do y <- rd t (NTESTS - 1);
  do t <- wr t (NTESTS - 1) (u64 (clk c - y));
  do _ <- average_time t;
  do '(t, _) <- median_time t;
  Ok (t, c + 1).

(** speed_test, lines 369-392; [t] is the global array of that name *)
Definition speed_test (f : list Z -> res (list Z)) (t : list Z) (c : Z) : res (list Z * Z) :=
  do a <- loop n (fun i a => wr a i (to_i32 i)) (stk 0);
  do '(t, _, c) <- loop NTESTS (fun i '(t, a, c) =>
    do t <- wr t i (clk c);
    do a <- f a;
    Ok (t, a, c + 1)) (t, a, c);
  report t c.

(** speed_test2, lines 396-422; the arrays a, b, d are 0, 1, 2 *)
Definition speed_test2 (f : heap -> Z -> Z -> Z -> res heap) (t : list Z) (c : Z) : res (list Z * Z) :=
  do '(a, b) <- loop n (fun i '(a, b) =>
    do a <- wr a i (to_i32 i);
    do b <- wr b i (to_i32 i);
    Ok (a, b)) (stk 0, stk 1);
  do '(t, _, c) <- loop NTESTS (fun i '(t, h, c) =>
    do t <- wr t i (clk c);
    do h <- f h 2 0 1;
    Ok (t, h, c + 1)) (t, hset (hset stk 0 a) 1 b, c);
  report t c.

(** The speed tests called by main, lines 449-464; the array t is all 0 at first *)
Definition speed_tests : res unit :=
  do '(t, c) <- speed_test (f_ct_rev2std X) (repeat 0 (Z.to_nat NTESTS)) 0;
  do '(t, c) <- speed_test (f_gs_rev2std X) t c;
  do '(t, c) <- speed_test (f_ct_std2rev X) t c;
  do '(t, c) <- speed_test (f_gs_std2rev X) t c;
  do '(t, c) <- speed_test (f_intt_ct_rev2std X) t c;
  do '(t, c) <- speed_test (f_intt_gs_rev2std X) t c;
  do '(t, c) <- speed_test (f_intt_ct_std2rev X) t c;
  do '(t, c) <- speed_test (f_intt_gs_std2rev X) t c;
  do '(t, c) <- speed_test2 (f_product1 X) t c;
  do '(t, c) <- speed_test2 (f_product2 X) t c;
  do '(t, c) <- speed_test2 (f_product3 X) t c;
  do '(t, c) <- speed_test2 (f_product4 X) t c;
  do '(t, c) <- speed_test2 (f_product5 X) t c;
  Ok tt.

(** main, lines 425-467: the value it returns *)
Definition main : res Z :=
  do _ <- tests 0;
  do _ <- speed_tests;
  Ok 0.
End Program.

(** ** The programs *)

Section Default.
Variables (n : Z) (T : tables).
(** test_ntt1024.c 213-221, 268-272, 332 *)
Definition default_variant : variant := {|
  before := fun a => Ok a;
  after := fun a => Ok a;
  before_forward := fun a => Ok a;
  between := fun a => Ok a;
  after_inverse := fun b => scalar_mul_array b n (t_inv_n T);
  after_product := fun c => Ok c
|}.
(** test_ntt1024.c 417-455 *)
Definition default_functions : functions := {|
  f_ct_rev2std := n_ct_rev2std n T;
  f_gs_rev2std := n_gs_rev2std n T;
  f_ct_std2rev := n_ct_std2rev n T;
  f_gs_std2rev := n_gs_std2rev n T;
  f_intt_ct_rev2std := n_intt_ct_rev2std n T;
  f_intt_gs_rev2std := n_intt_gs_rev2std n T;
  f_intt_ct_std2rev := n_intt_ct_std2rev n T;
  f_intt_gs_std2rev := n_intt_gs_std2rev n T;
  f_omega := t_omega T;
  f_inv_omega := t_inv_omega T;
  f_product1 := ntt_product1 n T;
  f_product2 := ntt_product2 n T;
  f_product3 := ntt_product3 n T;
  f_product4 := ntt_product4 n T;
  f_product5 := ntt_product5 n T
|}.

(** test_naive_ntt1024.c 225-233, 252-261, 281-287, 349-350 *)
Definition naive_variant : variant := {|
  before := fun a => Ok a;
  after := fun a => ntt_normalize a n;
  before_forward := fun a => Ok a;
  between := fun a => Ok a;
  after_inverse := fun b => do b <- scalar_mul_array_naive b n (t_inv_n T) 12289; ntt_normalize b n;
  after_product := fun c => ntt_normalize c n
|}.
(** test_naive_ntt1024.c 434-472 *)
Definition naive_functions : functions := {|
  f_ct_rev2std := v_ct_rev2std n T;
  f_gs_rev2std := v_gs_rev2std n T;
  f_ct_std2rev := v_ct_std2rev n T;
  f_gs_std2rev := v_gs_std2rev n T;
  f_intt_ct_rev2std := v_intt_ct_rev2std n T;
  f_intt_gs_rev2std := v_intt_gs_rev2std n T;
  f_intt_ct_std2rev := v_intt_ct_std2rev n T;
  f_intt_gs_std2rev := v_intt_gs_std2rev n T;
  f_omega := t_omega T;
  f_inv_omega := t_inv_omega T;
  f_product1 := naive_product1 n T;
  f_product2 := naive_product2 n T;
  f_product3 := naive_product3 n T;
  f_product4 := naive_product4 n T;
  f_product5 := naive_product5 n T
|}.
End Default.

Section Red.
Variables (n : Z) (T : red_tables).
(** test_ntt_red1024.c 214-226, 275-281; [shi] tells whether check_inverse shifts the
    arrays before each transform, as in test_ntt_red256.c and test_ntt_red_asm256.c *)
Definition red_variant (shi : bool) : variant := {|
  before := fun a => shift_array a n;
  after := fun a => normalize a n;
  before_forward := fun a => if shi then shift_array a n else Ok a;
  between := fun a => do a <- normalize a n; if shi then shift_array a n else Ok a;
  after_inverse := fun b => do b <- normalize b n; scalar_mul_array b n (r_inv_n T);
  after_product := fun c => Ok c
|}.
(** test_ntt_red1024.c 426-464; [sh] is the flag of [red_product1] *)
Definition red_functions (sh : bool) : functions := {|
  f_ct_rev2std := r_ct_rev2std n T;
  f_gs_rev2std := r_gs_rev2std n T;
  f_ct_std2rev := r_ct_std2rev n T;
  f_gs_std2rev := r_gs_std2rev n T;
  f_intt_ct_rev2std := r_intt_ct_rev2std n T;
  f_intt_gs_rev2std := r_intt_gs_rev2std n T;
  f_intt_ct_std2rev := r_intt_ct_std2rev n T;
  f_intt_gs_std2rev := r_intt_gs_std2rev n T;
  f_omega := r_omega T;
  f_inv_omega := r_inv_omega T;
  f_product1 := red_product1 sh n T;
  f_product2 := red_product2 sh n T;
  f_product3 := red_product3 sh n T;
  f_product4 := red_product4 sh n T;
  f_product5 := red_product5 sh n T
|}.
(** test_ntt_red_asm512.c 433-471 *)
Definition asm_functions (sh : bool) : functions := {|
  f_ct_rev2std := x_ct_rev2std n T;
  f_gs_rev2std := x_gs_rev2std n T;
  f_ct_std2rev := x_ct_std2rev n T;
  f_gs_std2rev := x_gs_std2rev n T;
  f_intt_ct_rev2std := x_intt_ct_rev2std n T;
  f_intt_gs_rev2std := x_intt_gs_rev2std n T;
  f_intt_ct_std2rev := x_intt_ct_std2rev n T;
  f_intt_gs_std2rev := x_intt_gs_std2rev n T;
  f_omega := r_omega T;
  f_inv_omega := r_inv_omega T;
  f_product1 := red_product1_asm sh n T;
  f_product2 := red_product2_asm sh n T;
  f_product3 := red_product3_asm sh n T;
  f_product4 := red_product4_asm sh n T;
  f_product5 := red_product5_asm sh n T
|}.
(** test_ntt_red_asm1024.c 433-471: product1 of that size is a different function, and no
    product of that size shifts its arguments *)
Definition asm1024_functions : functions := {|
  f_ct_rev2std := x_ct_rev2std n T;
  f_gs_rev2std := x_gs_rev2std n T;
  f_ct_std2rev := x_ct_std2rev n T;
  f_gs_std2rev := x_gs_std2rev n T;
  f_intt_ct_rev2std := x_intt_ct_rev2std n T;
  f_intt_gs_rev2std := x_intt_gs_rev2std n T;
  f_intt_ct_std2rev := x_intt_ct_std2rev n T;
  f_intt_gs_std2rev := x_intt_gs_std2rev n T;
  f_omega := r_omega T;
  f_inv_omega := r_inv_omega T;
  f_product1 := red1024_product1_asm n T;
  f_product2 := red_product2_asm false n T;
  f_product3 := red_product3_asm false n T;
  f_product4 := red_product4_asm false n T;
  f_product5 := red_product5_asm false n T
|}.
End Red.

(** test_ntt16.c, test_ntt256.c, test_ntt512.c, test_ntt1024.c *)
Definition test_ntt_main (rnd clk : Z -> Z) (stk : heap) (n : Z) (T : tables) (bt : list (Z * Z)) (m : Z) : res Z :=
  main rnd clk stk n bt m (default_variant n T) (default_functions n T).
(** test_naive_ntt16.c, test_naive_ntt256.c, test_naive_ntt512.c, test_naive_ntt1024.c *)
Definition test_naive_ntt_main (rnd clk : Z -> Z) (stk : heap) (n : Z) (T : tables) (bt : list (Z * Z)) (m : Z) : res Z :=
  main rnd clk stk n bt m (naive_variant n T) (naive_functions n T).
(** test_ntt_red16.c, test_ntt_red256.c, test_ntt_red512.c, test_ntt_red1024.c *)
Definition test_ntt_red_main (shi sh : bool) (rnd clk : Z -> Z) (stk : heap) (n : Z) (T : red_tables)
    (bt : list (Z * Z)) (m : Z) : res Z :=
  main rnd clk stk n bt m (red_variant n T shi) (red_functions n T sh).
(** test_ntt_red_asm16.c, test_ntt_red_asm256.c, test_ntt_red_asm512.c 426-475:
    [avx2] is the result of avx2_supported() *)
Definition test_ntt_red_asm_main (avx2 shi sh : bool) (rnd clk : Z -> Z) (stk : heap) (n : Z) (T : red_tables)
    (bt : list (Z * Z)) (m : Z) : res Z :=
  if avx2 then main rnd clk stk n bt m (red_variant n T shi) (asm_functions n T sh)
  else Ok 0.
(** test_ntt_red_asm1024.c 426-474 *)
Definition test_ntt_red_asm1024_main (avx2 : bool) (rnd clk : Z -> Z) (stk : heap) (T : red_tables)
    (bt : list (Z * Z)) (m : Z) : res Z :=
  if avx2 then main rnd clk stk 1024 bt m (red_variant 1024 T false) (asm1024_functions 1024 T)
  else Ok 0.
