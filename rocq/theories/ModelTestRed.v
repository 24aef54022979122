(** src/test_red.c.  Printing is modelled by returning what is printed.  The functions
    test and test2 (lines 22-50) are disabled by #if 0 and not modelled. *)

From Coq Require Import ZArith List Bool.
From Verif Require Import CSem.
Import ListNotations.
Open Scope Z_scope.

(** Constants, lines 11-13 *)
Definition Q := 12289.
Definition K := 3.
Definition MASK := 4095.
Definition INT32_MAX := 2147483647.
Definition INT32_MIN := -2147483648.
Definition INT64_MAX := 9223372036854775807.
Definition INT64_MIN := -9223372036854775808.

(** red, lines 18-20 *)
Definition red (x : Z) : res Z :=
  do a <- mul64 3 (Z.land x 4095);
  sub64 a (Z.shiftr x 12).

(** test_overflow, lines 54-58 *)
Definition test_overflow (x : Z) : res bool :=
  do r <- red x;
  Ok ((INT32_MAX <? r) || (r <? INT32_MIN)).

(** The loop of test_overflow2, lines 65-69 *)
Fixpoint overflow_loop (f : nat) (x w : Z) : res bool :=
  match f with
  | O => Err NoFuel
  | S f =>
      if w <? 4096 then
        do y <- add64 x w;
        do b <- test_overflow y;
        if b : bool then Ok true
        else do w <- add64 w 1; overflow_loop f x w
      else Ok false
  end.

(** test_overflow2, lines 61-71 *)
Definition test_overflow2 (x : Z) : res bool :=
  do x <- mul64 x 4096;
  overflow_loop (fuel 4096) x 0.

(** [l + 1 < h], lines 86 and 105 (l and h are 2^51 at most in absolute value) *)
Definition gap '(l, h) : bool := l + 1 <? h.

(** The body of the loop of find_lower_bound, lines 79-85 *)
Definition lower_step '(l, h) : res (Z * Z) :=
  do s <- add64 l h;
  do x <- div64 s 2;
  do _ <- cassert ((l <? x) && (x <=? h));
  do b <- test_overflow2 x;
  Ok (if b : bool then (x, h) else (l, x)).

(** find_lower_bound, lines 73-90: lower_bound *)
Definition find_lower_bound : res Z :=
  do l <- div64 INT64_MIN 4096;
  do '(_, h) <- cdowhile (fuel 64) lower_step gap (l, -1);
  mul64 4096 h.

(** The body of the loop of find_upper_bound, lines 98-104 *)
Definition upper_step '(l, h) : res (Z * Z) :=
  do s <- add64 l h;
  do x <- div64 s 2;
  do _ <- cassert ((l <=? x) && (x <? h));
  do b <- test_overflow2 x;
  Ok (if b : bool then (l, x) else (x, h)).

(** find_upper_bound, lines 92-109: upper_bound *)
Definition find_upper_bound : res Z :=
  do h <- div64 INT64_MAX 4096;
  do '(l, _) <- cdowhile (fuel 64) upper_step gap (0, h);
  do y <- mul64 4096 l;
  add64 y 4095.

(** What the loops on bounds print in a round: the bound, and the bound after a reduction if there is one *)
Definition line : Type := Z * option Z.

(** The loops on bounds, lines 116-126, 130-140, 177-187 and 190-200, for [next] in place of the assignment to nb *)
Definition iter_bound (next : Z -> res Z) : res (Z * list line) :=
  cfor (fuel 20) 0 (fun i => i <? 20) (fun i => u32 (i + 1)) (fun _ '(b, out) =>
    do nb <- next b;
    if INT32_MAX <? nb then
      do q <- div64 b 4096;
      do c <- add64 q Q;
      do c <- sub64 c K;
      do nb <- next c;
      Ok (nb, out ++ [(b, Some c)])
    else Ok (nb, out ++ [(b, None)])) (Q - 1, []).

(** Lines 119 and 123 *)
Definition ct_simple (b : Z) : res Z :=
  do x <- mul64 (K + 1) b;
  do y <- add64 x Q;
  sub64 y K.
(** Lines 133 and 137 *)
Definition gs_simple (b : Z) : res Z :=
  do x <- mul64 (2 * K) b;
  do y <- add64 x Q;
  sub64 y K.

(** iter_bound_abs, lines 111-142 *)
Definition iter_bound_abs : res ((Z * list line) * (Z * list line)) :=
  do c <- iter_bound ct_simple;
  do g <- iter_bound gs_simple;
  Ok (c, g).

(** ct_bound, lines 151-156 *)
Definition ct_bound (b : Z) : res Z :=
  do c <- add64 b 1;
  do d <- div64 c 4096;
  do delta <- sub64 (Q - K) d;
  do x <- mul64 (K + 1) b;
  if delta <? 0 then Ok x else add64 x delta.

(** gs_bound, lines 164-170 *)
Definition gs_bound (b : Z) : res Z :=
  do bb <- mul64 2 b;
  do c <- add64 bb 1;
  do d <- div64 c 4096;
  do delta <- sub64 (Q - K) d;
  do x <- mul64 K bb;
  if delta <? 0 then Ok x else add64 x delta.

(** iter_bound_abs2, lines 172-201 *)
Definition iter_bound_abs2 : res ((Z * list line) * (Z * list line)) :=
  do c <- iter_bound ct_bound;
  do g <- iter_bound gs_bound;
  Ok (c, g).

(** The loops of main, lines 210-214 and 216-220: the values of x for which a line is printed *)
Definition report (bound lo hi : Z) : res (list Z) :=
  cfor (fuel (hi - lo)) lo (fun x => x <? hi) (fun x => x + 1) (fun x out =>
    do y <- add64 bound x;
    do b <- test_overflow y;
    Ok (if b : bool then out ++ [x] else out)) [].

(** What main, lines 203-232, prints *)
Record printed := { p_lower : Z; p_upper : Z; p_below : list Z; p_above : list Z; p_hex_lower : Z; p_hex_upper : Z;
  p_abs : (Z * list line) * (Z * list line); p_abs2 : (Z * list line) * (Z * list line) }.

(** main, lines 203-232 *)
Definition main : res printed :=
  do lower <- find_lower_bound;
  do upper <- find_upper_bound;
  do l1 <- report lower (-10000) 1000000000;
  do l2 <- report upper (-1000000000) 10000;
  do a <- iter_bound_abs;
  do a2 <- iter_bound_abs2;
  Ok {| p_lower := lower; p_upper := upper; p_below := l1; p_above := l2; p_hex_lower := u64 lower; p_hex_upper := u64 upper;
        p_abs := a; p_abs2 := a2 |}.
