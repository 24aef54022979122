(** src/test_red_bounds.c (make target test_red_bounds) and src/test_shift.c.

    Printing is modelled by returning the numbers that are printed.  exit(EXIT_FAILURE) is
    [Err Exited].  The array bound of show_ct_bounds is not initialised: [stk i] is what it
    contains at first in call number [i] of show_ct_bounds. *)

From Coq Require Import ZArith List Bool.
From Verif Require Import CSem ModelBounds ModelTestTables.
Import ListNotations.
Open Scope Z_scope.

(** INT32_MAX and INT32_MIN of stdint.h, used on lines 36-332 *)
Definition INT32_MAX := 2147483647.
Definition INT32_MIN := -2147483648.

(** red, lines 10-12, has the same text as in red_bounds.c *)

(** max_abs_red, lines 16-26 *)
Definition max_abs_red (b : Z) : res Z :=
  do nb <- neg64 b;
  do '(min, _) <- min_red nb b;
  do '(max, _) <- max_red nb b;
  if max <? 0 then neg64 min
  else if 0 <? min then Ok max
  else do min <- neg64 min; Ok (if min <? max then max else min).

(** What ct_iteration and gs_iteration print in a round: the bound, and the bound after a
    reduction if there is one *)
Definition line : Type := Z * option Z.

(** ct_iteration, lines 28-44, for [bound] = ct_bound, and gs_iteration, lines 47-63, for
    [bound] = gs_bound: the last value of b and what is printed *)
Definition iteration (bound : Z -> Z -> Z -> res Z) (b low high : Z) : res (Z * list line) :=
  cfor (fuel 20) 0 (fun i => i <? 20) (fun i => u32 (i + 1)) (fun _ '(b, out) =>
    do nb <- bound b low high;
    if INT32_MAX <? nb then
      do c <- max_abs_red b;
      do nb <- bound c low high;
      Ok (nb, out ++ [(b, Some c)])
    else Ok (nb, out ++ [(b, None)])) (b, []).
Definition ct_iteration := iteration ct_bound.
Definition gs_iteration := iteration gs_bound.

(** The loops [for (x = lo; x <= hi; x++)] that check f(x), lines 88-95, 116-124 and 143-150 *)
Definition check_all (lo hi : Z) (f : Z -> res Z) (min max : Z) : res unit :=
  cfor (fuel (hi - lo + 1)) lo (fun x => x <=? hi) (fun x => x + 1) (fun x _ =>
    do r <- f x;
    if (r <? min) || (max <? r) then Err Exited else Ok tt) tt.

(** The loops [for (b = 128; b <= limit; b *= 2)], lines 78-99, 107-129, 133-155 and 164-199
    (b is 2^33 at most) *)
Definition each_bound {S} (limit : Z) (body : Z -> S -> res S) (s : S) : res S :=
  cfor (fuel 64) 128 (fun b => b <=? limit) (fun b => b * 2) body s.

(** test_min_max_red, lines 74-100 *)
Definition test_min_max_red (double_check : bool) : res (list (Z * Z * Z * Z * Z)) :=
  each_bound (Z.shiftl 1 32) (fun b out =>
    do nb <- neg64 b;
    do '(min, min_x) <- min_red nb b;
    do '(max, max_x) <- max_red nb b;
    do _ <- (if double_check then check_all nb b red min max else Ok tt);
    Ok (out ++ [(b, min, min_x, max, max_x)])) [].

(** The body of the loops on w of test_min_max_red_mul, lines 107-129 and 133-155 *)
Definition test_constant (double_check : bool) (w : Z) (out : list (Z * Z * Z * Z * Z * Z)) : res (list (Z * Z * Z * Z * Z * Z)) :=
  each_bound (Z.shiftl 1 23) (fun b out =>
    do nb <- neg64 b;
    do '(min, min_x) <- min_red_mul nb b w;
    do '(max, max_x) <- max_red_mul nb b w;
    do _ <- (if double_check then check_all nb b (fun x => do y <- mul64 x w; red y) min max else Ok tt);
    Ok (out ++ [(b, w, min, min_x, max, max_x)])) out.

(** test_min_max_red_mul, lines 102-157 *)
Definition test_min_max_red_mul (double_check : bool) : res (list (Z * Z * Z * Z * Z * Z)) :=
  do out <- cfor (fuel 12288) 1 (fun w => w <=? 12288) (fun w => w + 1) (test_constant double_check) [];
  cfor (fuel 12288) (-1) (fun w => -12288 <=? w) (fun w => w - 1) (test_constant double_check) out.

(** The checks of test_min_max_red_mul_interval, lines 175-195 *)
Definition check_products (b w min max : Z) : res unit :=
  do a <- (if w <? 1000 then neg64 w else sub64 w 1000);
  cfor (fuel (w - a + 1)) a (fun a => a <=? w) (fun a => a + 1) (fun a _ =>
    do x <- (if b <? 30000 then neg64 b else sub64 b 30000);
    cfor (fuel (b - x + 1)) x (fun x => x <=? b) (fun x => x + 1) (fun x _ =>
      do y <- mul64 x a;
      do r <- red y;
      do _ <- (if (r <? min) || (max <? r) then Err Exited else Ok tt);
      do nx <- neg64 x;
      do y <- mul64 nx a;
      do r <- red y;
      if (r <? min) || (max <? r) then Err Exited else Ok tt) tt) tt.

(** test_min_max_red_mul_interval, lines 159-201 *)
Definition test_min_max_red_mul_interval (double_check : bool) : res (list (Z * Z * (Z * Z * Z) * (Z * Z * Z))) :=
  cfor (fuel 14) 12288 (fun w => Z.quot 12288 8 <=? w) (fun w => Z.quot w 2) (fun w out =>
    each_bound (Z.shiftl 1 32) (fun b out =>
      do nb <- neg64 b;
      do nw <- neg64 w;
      do '(min, min_x, min_w) <- min_red_mul_interval nb b nw w;
      do '(max, max_x, max_w) <- max_red_mul_interval nb b nw w;
      do _ <- (if double_check then check_products b w min max else Ok tt);
      Ok (out ++ [(b, w, (min, min_x, min_w), (max, max_x, max_w))])) out) [].

(** What show_ct_bounds prints for a bound b0 on the input: b0 and the bounds on the output of
    the Cooley-Tukey and of the Gentleman-Sande transform; "--> overflow" is printed below a
    bound that is [INT32_MAX] or more *)
Definition row : Type := Z * Z * Z.
Definition overflow_shown (b : Z) : bool := INT32_MAX <=? b.

(** show_ct_bounds, lines 207-273; [bound] is the array bound *)
Definition show_ct_bounds (bound : list Z) (n : Z) (p : list Z) : res (list row) :=
  do _ <- cassert (n <=? 2048);
  do '(c, bound) <- ntt_ct_bounds 6144 n p bound;
  do '(g, bound) <- ntt_gs_bounds 6144 n p bound;
  let r1 := (6144, c, g) in
  do '(c, bound) <- ntt_ct_bounds 12288 n p bound;
  do '(g, bound) <- ntt_gs_bounds 12288 n p bound;
  let r2 := (12288, c, g) in
  do '(c, bound) <- ntt_ct_bounds 21499 n p bound;
  do '(g, bound) <- ntt_gs_bounds 21499 n p bound;
  let r3 := (21499, c, g) in
  do '(c, bound) <- ntt_ct_bounds 30709 n p bound;
  do '(g, bound) <- ntt_gs_bounds 30709 n p bound;
  let r4 := (30709, c, g) in
  do '(c, bound) <- ntt_ct_bounds 36864 n p bound;
  do '(g, bound) <- ntt_gs_bounds 36864 n p bound;
  let r5 := (36864, c, g) in
  Ok [r1; r2; r3; r4; r5].

(** The loop on lines 288-301: a, b, min, min_x, max, max_x for each round *)
Definition reductions : res (list (Z * Z * Z * Z * Z * Z)) :=
  do '(_, _, _, _, out) <- cdowhile (fuel 100) (fun '(_, _, na, nb, out) =>
      let a := na in
      let b := nb in
      do '(min, min_x) <- min_red a b;
      do '(max, max_x) <- max_red a b;
      Ok (a, b, min, max, out ++ [(a, b, min, min_x, max, max_x)]))
    (fun '(a, b, na, nb, _) => (nb <? b) || (a <? na)) (0, 0, INT32_MIN, INT32_MAX, []);
  Ok out.

(** The loop on lines 307-327 *)
Definition abs_reductions : res (list (Z * Z * Z * Z * Z * Z)) :=
  do '(_, _, _, _, out) <- cdowhile (fuel 100) (fun '(_, _, na, nb, out) =>
      let a := na in
      let b := nb in
      do '(min, min_x) <- min_red a b;
      do '(max, max_x) <- max_red a b;
      let out := out ++ [(a, b, min, min_x, max, max_x)] in
      do min <- (if min <? 0 then neg64 min else Ok min);
      do max <- (if max <? 0 then neg64 max else Ok max);
      if min <? max then do na <- neg64 max; Ok (a, b, na, max, out)
      else do na <- neg64 min; Ok (a, b, na, min, out))
    (fun '(a, b, na, nb, _) => (nb <? b) || (a <? na)) (0, 0, INT32_MIN, INT32_MAX, []);
  Ok out.

(** Lines 330-345: what is printed after one and after two reductions *)
Definition reduced_products : res ((Z * Z * Z * Z) * (Z * Z * Z * Z)) :=
  do '(a, _) <- min_red INT32_MIN INT32_MAX;
  do '(b, _) <- max_red INT32_MIN INT32_MAX;
  do '(min, _, _) <- min_red_mul_interval a b a b;
  do '(max, _, _) <- max_red_mul_interval a b a b;
  let one := (a, b, min, max) in
  do '(na, _) <- min_red a b;
  do '(nb, _) <- max_red a b;
  do '(min, _, _) <- min_red_mul_interval na nb na nb;
  do '(max, _, _) <- max_red_mul_interval na nb na nb;
  Ok (one, (na, nb, min, max)).

(** What is printed for an option on lines 365-400: the extrema of red(x * y) with the points
    where they are attained, and the iterations *)
Record option_printed := { o_min : Z * Z * Z; o_max : Z * Z * Z; o_ct : Z * list line; o_gs : Z * list line }.

(** Lines 367-376, 379-388 and 391-400: x is in [a, b], y in [c, d], and the constants of the
    iterations are in [low, high] *)
Definition products (a b c d low high : Z) : res option_printed :=
  do '(min, min_x, min_y) <- min_red_mul_interval a b c d;
  do '(max, max_x, max_y) <- max_red_mul_interval a b c d;
  do m <- (if min <? 0 then neg64 min else Ok min);
  do M <- (if max <? 0 then neg64 max else Ok max);
  let b := if m <? M then M else m in
  do ct <- ct_iteration b low high;
  do gs <- gs_iteration b low high;
  Ok {| o_min := (min, min_x, min_y); o_max := (max, max_x, max_y); o_ct := ct; o_gs := gs |}.

(** The calls of show_ct_bounds, lines 403-431 *)
Definition tables : list (Z * list Z) :=
  [(16, shoup_sred_ntt16_12289); (16, rev_shoup_sred_ntt16_12289);
   (16, shoup_sred_scaled_ntt16_12289); (16, rev_shoup_sred_scaled_ntt16_12289);
   (128, shoup_sred_ntt128_12289); (128, rev_shoup_sred_ntt128_12289);
   (128, shoup_sred_scaled_ntt128_12289); (128, rev_shoup_sred_scaled_ntt128_12289);
   (256, shoup_sred_ntt256_12289); (256, rev_shoup_sred_ntt256_12289);
   (256, shoup_sred_scaled_ntt256_12289); (256, rev_shoup_sred_scaled_ntt256_12289);
   (512, shoup_sred_ntt512_12289); (512, rev_shoup_sred_ntt512_12289);
   (512, shoup_sred_scaled_ntt512_12289); (512, rev_shoup_sred_scaled_ntt512_12289);
   (1024, shoup_sred_ntt1024_12289); (1024, rev_shoup_sred_ntt1024_12289);
   (1024, shoup_sred_scaled_ntt1024_12289); (1024, rev_shoup_sred_scaled_ntt1024_12289);
   (2048, shoup_sred_ntt2048_12289); (2048, rev_shoup_sred_ntt2048_12289);
   (2048, shoup_sred_scaled_ntt2048_12289); (2048, rev_shoup_sred_scaled_ntt2048_12289)].
Fixpoint show_tables (stk : Z -> list Z) (i : Z) (l : list (Z * list Z)) : res (list (list row)) :=
  match l with
  | [] => Ok []
  | (n, p) :: l =>
      do r <- show_ct_bounds (stk i) n p;
      do rs <- show_tables stk (i + 1) l;
      Ok (r :: rs)
  end.

(** What main prints *)
Record printed := { p_red : list (Z * Z * Z * Z * Z * Z); p_abs : list (Z * Z * Z * Z * Z * Z);
  p_products : (Z * Z * Z * Z) * (Z * Z * Z * Z);
  p_ct1 : Z * list line; p_ct2 : Z * list line; p_gs1 : Z * list line; p_gs2 : Z * list line;
  p_opt1 : option_printed; p_opt2 : option_printed; p_opt3 : option_printed; p_tables : list (list row) }.

(** main, lines 276-434; the code on lines 279-283 is not reached *)
Definition main (stk : Z -> list Z) : res printed :=
  do r <- reductions;
  do ar <- abs_reductions;
  do pr <- reduced_products;
  do ct1 <- ct_iteration 12288 0 12288;
  do ct2 <- ct_iteration 12288 (-6144) 6144;
  do gs1 <- gs_iteration 12288 0 12288;
  do gs2 <- gs_iteration 12288 (-6144) 6144;
  do o1 <- products 0 12288 0 12288 0 12288;
  do o2 <- products (-6144) 6144 (-6144) 6144 (-6144) 6144;
  do o3 <- products 0 12288 (-6144) 6144 (-6144) 6144;
  do t <- show_tables stk 0 tables;
  Ok {| p_red := r; p_abs := ar; p_products := pr; p_ct1 := ct1; p_ct2 := ct2; p_gs1 := gs1; p_gs2 := gs2;
        p_opt1 := o1; p_opt2 := o2; p_opt3 := o3; p_tables := t |}.

(** test_shift.c: main, lines 14-25, with print_shift (4-7) and print_shift_and (9-12).  Right
    shifts of negative numbers are arithmetic shifts (implementation-defined); for each i the
    eight numbers printed last on a line. *)
Definition shift_main : res (list (list Z)) :=
  cfor (fuel 1003) 0 (fun i => i <? 1003) (fun i => i + 1) (fun i out =>
    do ni <- sub32 0 i;
    Ok (out ++ [[Z.shiftr i 31; Z.shiftr i 11; Z.shiftr ni 31; Z.shiftr ni 11;
                 Z.land (Z.shiftr i 31) 12289; Z.land (Z.shiftr i 11) 12289;
                 Z.land (Z.shiftr ni 31) 12289; Z.land (Z.shiftr ni 11) 12289]])) [].
