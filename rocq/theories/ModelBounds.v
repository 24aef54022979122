(** Model of /repo/src/red_bounds.c and of the interval transformer for the
    reduction in /repo/verifier/src/ntt_intervals.cpp.

    int64_t values are [Z]; every signed 64-bit operation is checked for overflow.
    Results returned through pointers are returned in a tuple, after the value of
    the function.  Assertions are executed (the Makefile of src turns them off with
    -DNDEBUG). *)

From Coq Require Import ZArith List Bool.
From Verif Require Import CSem.
Import ListNotations.
Open Scope Z_scope.

(** red, src/red_bounds.c 16-18 *)
Definition red (x : Z) : res Z :=
  do t <- mul64 3 (Z.land x 4095);
  sub64 t (Z.shiftr x 12).

(** divd and remd, src/red_bounds.c 20-26 *)
Definition divd (x : Z) : Z := Z.shiftr x 12.
Definition remd (x : Z) : Z := Z.land x 4095.

(** Negation of an int64_t. *)
Definition neg64 (x : Z) : res Z := sub64 0 x.

(** max_red, src/red_bounds.c 37-48: (r, *m) *)
Definition max_red (a b : Z) : res (Z * Z) :=
  do _ <- cassert (a <=? b);
  let d := Z.lor a 4095 in
  let d := if d <=? b then d else b in
  do r <- red d;
  Ok (r, d).

(** min_red, src/red_bounds.c 53-63: (r, *m) *)
Definition min_red (a b : Z) : res (Z * Z) :=
  do _ <- cassert (a <=? b);
  let d := Z.land b (Z.lnot 4095) in
  let d := if a <=? d then d else a in
  do r <- red d;
  Ok (r, d).

(** gcd4096, src/red_bounds.c 74-84.  State of the loop: (g, w).  [g <<= 1] is
    undefined when the result leaves int64_t, which ends the loop for w = 0. *)
Definition gcd4096 (w : Z) : res Z :=
  do '(g, _) <- cwhile (fuel 64) (fun '(g, w) => Z.land w 1 =? 0)
    (fun '(g, w) => do g <- i64 (Z.shiftl g 1); Ok (g, Z.shiftr w 1)) (1, w);
  Ok (if g <? 4096 then g else 4096).

(** lmax, src/red_bounds.c 90-99 *)
Definition lmax (w x : Z) : res Z :=
  do wx <- mul64 w x;
  do d <- sub64 4095 (Z.land wx 4095);
  do k <- div64 d w;
  do y <- add64 x k;
  do wy <- mul64 w y;
  do _ <- cassert (Z.shiftr wy 12 =? Z.shiftr wx 12);
  do y1 <- add64 y 1;
  do wy1 <- mul64 w y1;
  do _ <- cassert (Z.shiftr wx 12 <? Z.shiftr wy1 12);
  Ok y.

(** The loop of max_red_mul, src/red_bounds.c 128-142.  State: (has the loop
    been left by break, x, x_max, r_max). *)
Definition max_loop (b pw g h : Z) (st : bool * Z * Z * Z) : res (bool * Z * Z * Z) :=
  let '(_, x, x_max, r_max) := st in
  do x <- lmax pw x;
  do px <- mul64 pw x;
  do nd <- neg64 (divd px);
  do s <- add64 nd g;
  if (b <=? x) || (s <=? r_max) then Ok (true, x, x_max, r_max) else
  do r <- red px;
  if r_max <? r then
    if remd px =? h then Ok (true, x, x, r)
    else do x1 <- add64 x 1; Ok (false, x1, x, r)
  else do x1 <- add64 x 1; Ok (false, x1, x_max, r_max).

(** max_red_mul, src/red_bounds.c 105-148: (r_max, *m) *)
Definition max_red_mul (a b w : Z) : res (Z * Z) :=
  do _ <- cassert (a <=? b);
  do '(a, b, pw) <- (if w <? 0 then
      do na <- neg64 a; do nb <- neg64 b; do nw <- neg64 w; Ok (nb, na, nw)
    else Ok (a, b, w));
  do pb <- mul64 pw b;
  do r_max <- red pb;
  do gg <- gcd4096 w;
  do h <- sub64 4096 gg;
  do g <- mul64 3 h;
  do '(_, _, x_max, r_max) <- cwhile (fuel (b - a + 1)) (fun '(stop, _, _, _) => negb stop)
    (max_loop b pw g h) (false, a, b, r_max);
  do x_max <- (if w <? 0 then neg64 x_max else Ok x_max);
  Ok (r_max, x_max).

(** lmin, src/red_bounds.c 155-164 *)
Definition lmin (w x : Z) : res Z :=
  do wx <- mul64 w x;
  do k <- div64 (Z.land wx 4095) w;
  do y <- sub64 x k;
  do wy <- mul64 w y;
  do _ <- cassert (Z.shiftr wy 12 =? Z.shiftr wx 12);
  do y1 <- sub64 y 1;
  do wy1 <- mul64 w y1;
  do _ <- cassert (Z.shiftr wy1 12 <? Z.shiftr wx 12);
  Ok y.

(** The loop of min_red_mul, src/red_bounds.c 186-198 *)
Definition min_loop (a pw : Z) (st : bool * Z * Z * Z) : res (bool * Z * Z * Z) :=
  let '(_, x, x_min, r_min) := st in
  do x <- lmin pw x;
  do px <- mul64 pw x;
  do nd <- neg64 (divd px);
  if (x <=? a) || (r_min <=? nd) then Ok (true, x, x_min, r_min) else
  do r <- red px;
  if r <? r_min then
    if remd px =? 0 then Ok (true, x, x, r)
    else do x1 <- sub64 x 1; Ok (false, x1, x, r)
  else do x1 <- sub64 x 1; Ok (false, x1, x_min, r_min).

(** min_red_mul, src/red_bounds.c 169-204: (r_min, *m) *)
Definition min_red_mul (a b w : Z) : res (Z * Z) :=
  do _ <- cassert (a <=? b);
  do '(a, b, pw) <- (if w <? 0 then
      do na <- neg64 a; do nb <- neg64 b; do nw <- neg64 w; Ok (nb, na, nw)
    else Ok (a, b, w));
  do pa <- mul64 pw a;
  do r_min <- red pa;
  do '(_, _, x_min, r_min) <- cwhile (fuel (b - a + 1)) (fun '(stop, _, _, _) => negb stop)
    (min_loop a pw) (false, b, a, r_min);
  do x_min <- (if w <? 0 then neg64 x_min else Ok x_min);
  Ok (r_min, x_min).

(** The body of the two loops of max_red_mul_interval, src/red_bounds.c 223-239 and
    244-258; [neg] selects the first one.  State: (left by break, w, r_max, x_max,
    w_max). *)
Definition max_interval_body (neg : bool) (a b : Z) (st : bool * Z * Z * Z * Z)
    : res (bool * Z * Z * Z * Z) :=
  let '(_, w, r_max, x_max, w_max) := st in
  do _ <- cassert (if neg then w <? 0 else 0 <? w);
  do wb <- (if neg then mul64 w b else do nw <- neg64 w; mul64 nw b);
  do nd <- neg64 (divd wb);
  do s <- add64 nd 12285;
  if s <=? r_max then Ok (true, w, r_max, x_max, w_max) else
  do '(r, x) <- max_red_mul a b w;
  do w' <- (if neg then add64 w 1 else sub64 w 1);
  if r_max <? r then Ok (false, w', r, x, w) else Ok (false, w', r_max, x_max, w_max).

(** max_red_mul_interval, src/red_bounds.c 211-264: (r_max, *m, *mw) *)
Definition max_red_mul_interval (a b low high : Z) : res (Z * Z * Z) :=
  do _ <- cassert ((a <=? b) && (low <=? high));
  let l := if low <? 0 then low else 0 in
  do h <- (if 0 <=? high then Ok 0 else add64 high 1);
  do '(_, _, r_max, x_max, w_max) <- cwhile (fuel (h - l))
    (fun '(stop, w, _, _, _) => negb stop && (w <? h))
    (max_interval_body true a b) (false, l, 0, 0, 0);
  do l <- (if low <=? 0 then Ok 0 else sub64 low 1);
  let h := if 0 <? high then high else 0 in
  do '(_, _, r_max, x_max, w_max) <- cwhile (fuel (h - l))
    (fun '(stop, w, _, _, _) => negb stop && (l <? w))
    (max_interval_body false a b) (false, h, r_max, x_max, w_max);
  Ok (r_max, x_max, w_max).

(** The body of the two loops of min_red_mul_interval, src/red_bounds.c 281-296 and
    301-314 *)
Definition min_interval_body (neg : bool) (a b : Z) (st : bool * Z * Z * Z * Z)
    : res (bool * Z * Z * Z * Z) :=
  let '(_, w, r_min, x_min, w_min) := st in
  do _ <- cassert (if neg then w <? 0 else 0 <? w);
  do wb <- (if neg then do nw <- neg64 w; mul64 nw b else mul64 w b);
  do nd <- neg64 (divd wb);
  if r_min <=? nd then Ok (true, w, r_min, x_min, w_min) else
  do '(r, x) <- min_red_mul a b w;
  do w' <- (if neg then add64 w 1 else sub64 w 1);
  if r <? r_min then Ok (false, w', r, x, w) else Ok (false, w', r_min, x_min, w_min).

(** min_red_mul_interval, src/red_bounds.c 269-320: (r_min, *m, *wm).  The tests on
    [high] and [low] are not those of max_red_mul_interval. *)
Definition min_red_mul_interval (a b low high : Z) : res (Z * Z * Z) :=
  do _ <- cassert ((a <=? b) && (low <=? high));
  let l := if low <? 0 then low else 0 in
  do h <- (if 0 <? high then Ok 0 else add64 high 1);
  do '(_, _, r_min, x_min, w_min) <- cwhile (fuel (h - l))
    (fun '(stop, w, _, _, _) => negb stop && (w <? h))
    (min_interval_body true a b) (false, l, 0, 0, 0);
  do l <- (if low <? 0 then Ok 0 else sub64 low 1);
  let h := if 0 <? high then high else 0 in
  do '(_, _, r_min, x_min, w_min) <- cwhile (fuel (h - l))
    (fun '(stop, w, _, _, _) => negb stop && (l <? w))
    (min_interval_body false a b) (false, h, r_min, x_min, w_min);
  Ok (r_min, x_min, w_min).

(** The end of ct_bound and ct_bound_fixed, src/red_bounds.c 346-351, 391-396 *)
Definition ct_combine (b min_r max_r : Z) : res Z :=
  do b1 <- add64 b max_r;
  do b2 <- sub64 b min_r;
  do b1 <- (if b1 <? 0 then neg64 b1 else Ok b1);
  do b2 <- (if b2 <? 0 then neg64 b2 else Ok b2);
  Ok (if b1 <? b2 then b2 else b1).

(** The end of gs_bound and gs_bound_fixed, src/red_bounds.c 371-374, 414-417 *)
Definition gs_combine (b min_r max_r : Z) : res Z :=
  do b1 <- (if max_r <? 0 then neg64 min_r
            else if 0 <? min_r then Ok max_r
            else do nm <- neg64 min_r; Ok (if nm <? max_r then max_r else nm));
  do b2 <- mul64 2 b;
  Ok (if b1 <? b2 then b2 else b1).

(** ct_bound, src/red_bounds.c 335-352 *)
Definition ct_bound (b low high : Z) : res Z :=
  do _ <- cassert ((0 <=? b) && (low <=? high));
  do nb <- neg64 b;
  do '(min_r, _, _) <- min_red_mul_interval nb b low high;
  do '(max_r, _, _) <- max_red_mul_interval nb b low high;
  ct_combine b min_r max_r.

(** gs_bound, src/red_bounds.c 360-375 *)
Definition gs_bound (b low high : Z) : res Z :=
  do _ <- cassert ((0 <=? b) && (low <=? high));
  do nb <- mul64 (-2) b;
  do pb <- mul64 2 b;
  do '(min_r, _, _) <- min_red_mul_interval nb pb low high;
  do '(max_r, _, _) <- max_red_mul_interval nb pb low high;
  gs_combine b min_r max_r.

(** ct_bound_fixed, src/red_bounds.c 380-397 *)
Definition ct_bound_fixed (b w : Z) : res Z :=
  do _ <- cassert (0 <=? b);
  do nb <- neg64 b;
  do '(min_r, _) <- min_red_mul nb b w;
  do '(max_r, _) <- max_red_mul nb b w;
  ct_combine b min_r max_r.

(** gs_bound_fixed, src/red_bounds.c 403-418 *)
Definition gs_bound_fixed (b w : Z) : res Z :=
  do _ <- cassert (0 <=? b);
  do nb <- mul64 (-2) b;
  do pb <- mul64 2 b;
  do '(min_r, _) <- min_red_mul nb pb w;
  do '(max_r, _) <- max_red_mul nb pb w;
  gs_combine b min_r max_r.

(** The maximum of a bound over the constants p[t], .., p[2t-1]:
    src/red_bounds.c 443-447, 472-476 *)
Definition row_bound (bnd : Z -> Z -> res Z) (n b t : Z) (p : list Z) : res Z :=
  do w <- rd p t;
  do c <- bnd b w;
  cfor (fuel n) 1 (fun j => j <? t) (fun j => u32 (j + 1)) (fun j c =>
    do w <- rd p (u32 (t + j));
    do d <- bnd b w;
    Ok (if c <? d then d else c)) c.

(** ntt_ct_bounds, src/red_bounds.c 428-453: (returned bound, array bound).
    State of the loop: (b, k, bound). *)
Definition ntt_ct_bounds (b0 n : Z) (p bound : list Z) : res (Z * list Z) :=
  do bound <- wr bound 0 b0;
  do '(b, _, bound) <- cfor (fuel n) 1 (fun t => t <? n) (fun t => u32 (Z.shiftl t 1))
    (fun t '(b, k, bound) =>
      let k := u32 (k + 1) in
      do c <- row_bound ct_bound_fixed n b t p;
      do bound <- wr bound k c;
      Ok (c, k, bound)) (b0, 0, bound);
  Ok (b, bound).

(** ntt_gs_bounds, src/red_bounds.c 463-482 *)
Definition ntt_gs_bounds (b0 n : Z) (p bound : list Z) : res (Z * list Z) :=
  do bound <- wr bound 0 b0;
  do '(b, _, bound) <- cfor (fuel n) (n / 2) (fun t => 0 <? t) (fun t => Z.shiftr t 1)
    (fun t '(b, k, bound) =>
      let k := u32 (k + 1) in
      do c <- row_bound gs_bound_fixed n b t p;
      do bound <- wr bound k c;
      Ok (c, k, bound)) (b0, 0, bound);
  Ok (b, bound).

(** The bounds computed for the intrinsic [red] by the verifier,
    verifier/src/ntt_intervals.cpp 156-158 and 174-184: [number_t] has arbitrary
    precision, so there is no overflow.  [None] is an infinite bound: the output is
    then unconstrained (lines 186-189). *)
Definition verifier_red1 (x : Z) : Z := 3 * Z.land x 4095 - Z.shiftr x 12.
Definition verifier_red (lb ub : option Z) : option (Z * Z) :=
  match lb, ub with
  | Some a, Some b =>
      let d := Z.land b (Z.lnot 4095) in
      let d := if a <=? d then d else a in
      let red_lb := verifier_red1 d in
      let d := Z.lor a 4095 in
      let d := if d <=? b then d else b in
      let red_ub := verifier_red1 d in
      Some (red_lb, red_ub)
  | _, _ => None
  end.
