(** Model of the table generators /repo/src/make_tables.c,
    /repo/src/make_red_tables.c and /repo/src/make_bitrev_table.c.

    The functions of the two table generators that are the same text are
    modelled once.  Simplifications: the arguments of [main] are the values
    returned by [atol]; the files written are represented by the parameters
    and tables printed into them (decimal formatting, [open_file] and the
    failure of [malloc] are not modelled); [malloc n] returns a list of [n]
    unspecified values.  Both programs are compiled with their assertions
    (src/Makefile 32-36). *)

From Coq Require Import ZArith List Bool.
From Verif Require Import CSem.
Import ListNotations.
Open Scope Z_scope.

(** [x % q] on uint32_t *)
Definition urem (x q : Z) : res Z := if q =? 0 then Err DivByZero else Ok (x mod q).
Definition udiv (x q : Z) : res Z := if q =? 0 then Err DivByZero else Ok (x / q).

(** power, src/make_tables.c 30-44, src/make_red_tables.c 32-46.
    State of the loop: (y, k, x). *)
Definition power (x k q : Z) : res Z :=
  do _ <- cassert (0 <? q);
  do '(y, _, _) <- cwhile (fuel 32) (fun '(y, k, x) => negb (k =? 0))
    (fun '(y, k, x) =>
       do y <- (if negb (Z.land k 1 =? 0) then urem (u32 (y * x)) q else Ok y);
       do x' <- urem (u32 (x * x)) q;
       Ok (y, Z.shiftr k 1, x')) (1, k, x);
  Ok y.

(** inverse, src/make_tables.c 49-77, src/make_red_tables.c 51-79.
    [Some inv] for "return true" with [*inv_x = inv].  State of the loop:
    (r1, r2, u1, u2, v1, v2). *)
Definition inverse (x q : Z) : res (option Z) :=
  let sx := to_i32 x in
  let sq := to_i32 q in
  do '(r1, r2, u1, u2, v1, v2) <-
    cwhile (fuel (x + q)) (fun '(r1, r2, u1, u2, v1, v2) => 0 <? r2)
    (fun '(r1, r2, u1, u2, v1, v2) =>
       do m <- mul32 sx u1; do m' <- mul32 sq v1; do s <- add32 m m';
       do _ <- cassert (r1 =? s);
       do m <- mul32 sx u2; do m' <- mul32 sq v2; do s <- add32 m m';
       do _ <- cassert (r2 =? s);
       do _ <- cassert (0 <=? r1);
       do g <- div32 r1 r2;
       do m <- mul32 g r2; do r2' <- sub32 r1 m;
       do m <- mul32 g u2; do u2' <- sub32 u1 m;
       do m <- mul32 g v2; do v2' <- sub32 v1 m;
       Ok (r2, r2', u2, u2', v2, v2')) (sx, sq, 1, 0, 0, 1);
  if r1 =? 1 then
    do u1 <- rem32 u1 sq;
    let u1 := if u1 <? 0 then to_i32 (u32 (u1 + q)) else u1 in
    do m <- mul32 sx u1;
    do m <- rem32 m sq;
    do _ <- cassert (m =? 1);
    Ok (Some (u32 u1))
  else Ok None.

(** logtwo, src/make_tables.c 83-96, src/make_red_tables.c 85-98,
    src/make_bitrev_table.c 17-30.  State of the loop: (i, n). *)
Definition logtwo (n : Z) : res (option Z) :=
  do '(i, n) <- cwhile (fuel 32) (fun '(i, n) => Z.land n 1 =? 0)
    (fun '(i, n) => Ok (u32 (i + 1), Z.shiftr n 1)) (0, n);
  if n =? 1 then Ok (Some i) else Ok None.

(** reverse, src/make_tables.c 101-112, src/make_red_tables.c 103-114,
    src/make_bitrev_table.c 35-46.  State of the loop: (x, i). *)
Definition reverse (i k : Z) : res Z :=
  do '(x, _) <- cfor (fuel k) 0 (fun j => j <? k) (fun j => u32 (j + 1))
    (fun j '(x, i) => Ok (Z.lor (u32 (Z.shiftl x 1)) (Z.land i 1), Z.shiftr i 1)) (0, i);
  Ok x.

(** find_k, src/make_red_tables.c 119-127 *)
Definition find_k (q : Z) : res Z :=
  cwhile (fuel 32) (fun x => Z.land x 1 =? 0) (fun x => Ok (Z.shiftr x 1)) (u32 (q - 1)).

(** is_primitive_root, src/make_tables.c 119-129, src/make_red_tables.c
    133-143.  The early [return false] is recorded in the state; the loop of
    the model then runs on without effect. *)
Definition is_primitive_root (x n q : Z) : res bool :=
  do ok <- cfor (fuel n) 1 (fun i => i <? n) (fun i => u32 (i + 1)) (fun i ok =>
    if ok : bool then do p <- power x i q; Ok (negb (p =? 1)) else Ok false) true;
  if ok : bool then do p <- power x n q; Ok (p =? 1) else Ok false.

(** rescale_factor8 and rescale_factor6, src/make_red_tables.c 149-154, 159-164 *)
Definition rescale_factor8 (inv_n inv_k q : Z) : res Z :=
  do s <- power inv_k 8 q; urem (u32 (s * inv_n)) q.
Definition rescale_factor6 (inv_n inv_k q : Z) : res Z :=
  do s <- power inv_k 6 q; urem (u32 (s * inv_n)) q.

(** build_power_table, src/make_tables.c 135-142, src/make_red_tables.c
    171-178.  State of the loop: (x, a). *)
Definition build_power_table (a : list Z) (n q x y : Z) : res (list Z) :=
  do '(_, a) <- cfor (fuel n) 0 (fun i => i <? n) (fun i => u32 (i + 1)) (fun i '(x, a) =>
    do a <- wr a i x;
    do x <- urem (u32 (x * y)) q;
    Ok (x, a)) (x, a);
  Ok a.

(** The inner loop of build_table, src/make_tables.c 159-164,
    src/make_red_tables.c 196-201.  State: (i, b, a). *)
Definition fill_row (n q t c : Z) (st : Z * Z * list Z) : res (Z * Z * list Z) :=
  cfor (fuel n) 0 (fun j => j <? t) (fun j => u32 (j + 1)) (fun j '(i, b, a) =>
    do _ <- cassert ((i =? u32 (t + j)) && (i <? n));
    do a <- wr a i b;
    do b <- urem (u32 (b * c)) q;
    Ok (u32 (i + 1), b, a)) st.

(** build_table, src/make_tables.c 150-166 *)
Definition build_table (a : list Z) (n q x y : Z) : res (list Z) :=
  do a <- wr a 0 0;
  do '(_, a) <- cfor (fuel n) 1 (fun t => t <? n) (fun t => u32 (Z.shiftl t 1)) (fun t '(i, a) =>
    do e <- udiv n (u32 (2 * t));
    do b <- power x e q;
    do c <- power y e q;
    do '(i, _, a) <- fill_row n q t c (i, b, a);
    Ok (i, a)) (1, a);
  Ok a.

(** build_table, src/make_red_tables.c 186-203 *)
Definition build_table_k (a : list Z) (n q x y inv_k : Z) : res (list Z) :=
  do a <- wr a 0 0;
  do '(_, a) <- cfor (fuel n) 1 (fun t => t <? n) (fun t => u32 (Z.shiftl t 1)) (fun t '(i, a) =>
    do e <- udiv n (u32 (2 * t));
    do b <- power x e q;
    do b <- urem (u32 (b * inv_k)) q;
    do c <- power y e q;
    do '(i, _, a) <- fill_row n q t c (i, b, a);
    Ok (i, a)) (1, a);
  Ok a.

(** The inner loop of build_rev_table, src/make_tables.c 183-188,
    src/make_red_tables.c 221-226.  State: (b, a). *)
Definition fill_row_rev (n q t k c : Z) (st : Z * list Z) : res (Z * list Z) :=
  cfor (fuel n) 0 (fun j => j <? t) (fun j => u32 (j + 1)) (fun j '(b, a) =>
    do r <- reverse j k;
    let i := u32 (t + r) in
    do _ <- cassert ((t <=? i) && (i <? u32 (2 * t)));
    do a <- wr a i b;
    do b <- urem (u32 (b * c)) q;
    Ok (b, a)) st.

(** build_rev_table, src/make_tables.c 174-190.  State: (k, a). *)
Definition build_rev_table (a : list Z) (n q x y : Z) : res (list Z) :=
  do a <- wr a 0 0;
  do '(_, a) <- cfor (fuel n) 1 (fun t => t <? n) (fun t => u32 (Z.shiftl t 1)) (fun t '(k, a) =>
    do e <- udiv n (u32 (2 * t));
    do b <- power x e q;
    do c <- power y e q;
    do '(_, a) <- fill_row_rev n q t k c (b, a);
    Ok (u32 (k + 1), a)) (0, a);
  Ok a.

(** build_rev_table, src/make_red_tables.c 211-228 *)
Definition build_rev_table_k (a : list Z) (n q x y inv_k : Z) : res (list Z) :=
  do a <- wr a 0 0;
  do '(_, a) <- cfor (fuel n) 1 (fun t => t <? n) (fun t => u32 (Z.shiftl t 1)) (fun t '(k, a) =>
    do e <- udiv n (u32 (2 * t));
    do b <- power x e q;
    do b <- urem (u32 (b * inv_k)) q;
    do c <- power y e q;
    do '(_, a) <- fill_row_rev n q t k c (b, a);
    Ok (u32 (k + 1), a)) (0, a);
  Ok a.

(** What a generator does: write its files, or exit with a message. *)
Inductive reject :=
| SizeTooSmall | SizeTooLarge | NotPowerOfTwo | BadPsi | NotRoot | BugInverse | BadK.
Inductive outcome (A : Type) :=
| Written (t : A)
| Exit (why : reject).
Arguments Written {A} t.
Arguments Exit {A} why.

(** The parameters and tables written by make_tables (src/make_tables.c
    248-284, 289-337). *)
Record tables := {
  t_psi : Z; t_omega : Z; t_inv_psi : Z; t_inv_omega : Z; t_inv_n : Z;
  psi_powers : list Z;
  inv_psi_powers : list Z;
  inv_psi_powers_rev : list Z;
  scaled_inv_psi_powers : list Z;
  omega_powers : list Z;
  omega_powers_rev : list Z;
  inv_omega_powers : list Z;
  inv_omega_powers_rev : list Z;
  mixed_powers : list Z;
  mixed_powers_rev : list Z;
  inv_mixed_powers : list Z;
  inv_mixed_powers_rev : list Z
}.

(** print_tables, src/make_tables.c 289-337.  The buffer is reused from one
    table to the next.  Printing truncates nothing: the entries are written as
    decimal numbers. *)
Definition print_tables (malloc : Z -> list Z) (q n psi phi inv_psi inv_phi inv_n : Z) : res tables :=
  let buf := malloc n in
  do t1 <- build_power_table buf n q 1 psi;
  do t2 <- build_power_table t1 n q 1 inv_psi;
  do t3 <- build_rev_table t2 n q 1 inv_psi;
  do t4 <- build_power_table t3 n q inv_n inv_psi;
  do t5 <- build_table t4 n q 1 phi;
  do t6 <- build_rev_table t5 n q 1 phi;
  do t7 <- build_table t6 n q 1 inv_phi;
  do t8 <- build_rev_table t7 n q 1 inv_phi;
  do t9 <- build_table t8 n q psi phi;
  do t10 <- build_rev_table t9 n q psi phi;
  do t11 <- build_table t10 n q inv_psi inv_phi;
  do t12 <- build_rev_table t11 n q inv_psi inv_phi;
  Ok {| t_psi := psi; t_omega := phi; t_inv_psi := inv_psi; t_inv_omega := inv_phi;
        t_inv_n := inv_n;
        psi_powers := t1; inv_psi_powers := t2; inv_psi_powers_rev := t3;
        scaled_inv_psi_powers := t4; omega_powers := t5; omega_powers_rev := t6;
        inv_omega_powers := t7; inv_omega_powers_rev := t8; mixed_powers := t9;
        mixed_powers_rev := t10; inv_mixed_powers := t11; inv_mixed_powers_rev := t12 |}.

(** main, src/make_tables.c 358-441 *)
Definition make_tables (malloc : Z -> list Z) (size psi : Z) : res (outcome tables) :=
  let q := 12289 in
  if size <=? 1 then Ok (Exit SizeTooSmall) else
  if 100000 <=? size then Ok (Exit SizeTooLarge) else
  let n := size in
  do lg <- logtwo n;
  match lg with None => Ok (Exit NotPowerOfTwo) | Some _ =>
  if (psi <=? 1) || (q <=? psi) then Ok (Exit BadPsi) else
  do i <- power psi n q;
  if negb (i =? u32 (q - 1)) then Ok (Exit NotRoot) else
  do phi <- urem (u32 (psi * psi)) q;
  do pr <- is_primitive_root phi n q;
  do _ <- cassert pr;
  do r <- inverse psi q;
  match r with None => Ok (Exit BugInverse) | Some inv_psi =>
  do r <- inverse phi q;
  match r with None => Ok (Exit BugInverse) | Some inv_phi =>
  do r <- inverse n q;
  match r with None => Ok (Exit BugInverse) | Some inv_n =>
  do t <- print_tables malloc q n psi phi inv_psi inv_phi inv_n;
  Ok (Written t)
  end end end end.

(** shift, src/make_red_tables.c 233-236 *)
Definition shift (x q : Z) : res Z :=
  do _ <- cassert (x <? q);
  do h <- udiv q 2;
  Ok (if x <=? h then to_i32 x else to_i32 (u32 (x - q))).

(** print_table, src/make_red_tables.c 243-259: the list of printed numbers *)
Definition print_table_red (a : list Z) (n q : Z) : res (list Z) :=
  cfor (fuel n) 0 (fun i => i <? n) (fun i => u32 (i + 1)) (fun i out =>
    do x <- rd a i;
    do v <- shift x q;
    Ok (out ++ [v])) [].

(** The parameters and tables written by make_red_tables
    (src/make_red_tables.c 298-338, 343-398). *)
Record red_tables := {
  r_psi : Z; r_omega : Z; r_inv_psi : Z; r_inv_omega : Z; r_inv_n : Z; r_inv_k : Z;
  rescale8 : Z; rescale6 : Z;
  red_psi_powers : list Z;
  red_psi_powers_rev : list Z;
  red_inv_psi_powers : list Z;
  red_scaled_inv_psi_powers : list Z;
  red_scaled_inv_psi_powers_var : list Z;
  red_omega_powers : list Z;
  red_omega_powers_rev : list Z;
  red_inv_omega_powers : list Z;
  red_inv_omega_powers_rev : list Z;
  red_mixed_powers : list Z;
  red_mixed_powers_rev : list Z;
  red_inv_mixed_powers : list Z;
  red_inv_mixed_powers_rev : list Z
}.

(** print_declarations (rescale factors) and print_tables,
    src/make_red_tables.c 298-338, 343-398 *)
Definition print_red_tables (malloc : Z -> list Z)
    (q n psi phi inv_psi inv_phi inv_n inv_k : Z) : res red_tables :=
  do s8 <- rescale_factor8 inv_n inv_k q;
  do s6 <- rescale_factor6 inv_n inv_k q;
  let buf := malloc n in
  do t1 <- build_power_table buf n q inv_k psi;
  do p1 <- print_table_red t1 n q;
  do t2 <- build_rev_table_k t1 n q 1 psi inv_k;
  do p2 <- print_table_red t2 n q;
  do t3 <- build_power_table t2 n q inv_k inv_psi;
  do p3 <- print_table_red t3 n q;
  do s <- rescale_factor8 inv_n inv_k q;
  do t4 <- build_power_table t3 n q s inv_psi;
  do p4 <- print_table_red t4 n q;
  do s <- rescale_factor6 inv_n inv_k q;
  do t5 <- build_power_table t4 n q s inv_psi;
  do p5 <- print_table_red t5 n q;
  do t6 <- build_table_k t5 n q 1 phi inv_k;
  do p6 <- print_table_red t6 n q;
  do t7 <- build_rev_table_k t6 n q 1 phi inv_k;
  do p7 <- print_table_red t7 n q;
  do t8 <- build_table_k t7 n q 1 inv_phi inv_k;
  do p8 <- print_table_red t8 n q;
  do t9 <- build_rev_table_k t8 n q 1 inv_phi inv_k;
  do p9 <- print_table_red t9 n q;
  do t10 <- build_table_k t9 n q psi phi inv_k;
  do p10 <- print_table_red t10 n q;
  do t11 <- build_rev_table_k t10 n q psi phi inv_k;
  do p11 <- print_table_red t11 n q;
  do t12 <- build_table_k t11 n q inv_psi inv_phi inv_k;
  do p12 <- print_table_red t12 n q;
  do t13 <- build_rev_table_k t12 n q inv_psi inv_phi inv_k;
  do p13 <- print_table_red t13 n q;
  Ok {| r_psi := psi; r_omega := phi; r_inv_psi := inv_psi; r_inv_omega := inv_phi;
        r_inv_n := inv_n; r_inv_k := inv_k; rescale8 := s8; rescale6 := s6;
        red_psi_powers := p1; red_psi_powers_rev := p2; red_inv_psi_powers := p3;
        red_scaled_inv_psi_powers := p4; red_scaled_inv_psi_powers_var := p5;
        red_omega_powers := p6; red_omega_powers_rev := p7;
        red_inv_omega_powers := p8; red_inv_omega_powers_rev := p9;
        red_mixed_powers := p10; red_mixed_powers_rev := p11;
        red_inv_mixed_powers := p12; red_inv_mixed_powers_rev := p13 |}.

(** main, src/make_red_tables.c 419-514 *)
Definition make_red_tables (malloc : Z -> list Z) (size psi : Z) : res (outcome red_tables) :=
  let q := 12289 in
  do k <- find_k q;
  if (k =? 0) || (q <=? k) then Ok (Exit BadK) else
  if size <=? 1 then Ok (Exit SizeTooSmall) else
  if 100000 <=? size then Ok (Exit SizeTooLarge) else
  let n := size in
  do lg <- logtwo n;
  match lg with None => Ok (Exit NotPowerOfTwo) | Some _ =>
  if (psi <=? 1) || (q <=? psi) then Ok (Exit BadPsi) else
  do i <- power psi n q;
  if negb (i =? u32 (q - 1)) then Ok (Exit NotRoot) else
  do phi <- urem (u32 (psi * psi)) q;
  do pr <- is_primitive_root phi n q;
  do _ <- cassert pr;
  do r <- inverse psi q;
  match r with None => Ok (Exit BugInverse) | Some inv_psi =>
  do r <- inverse k q;
  match r with None => Ok (Exit BugInverse) | Some inv_k =>
  do r <- inverse phi q;
  match r with None => Ok (Exit BugInverse) | Some inv_phi =>
  do r <- inverse n q;
  match r with None => Ok (Exit BugInverse) | Some inv_n =>
  do t <- print_red_tables malloc q n psi phi inv_psi inv_phi inv_n inv_k;
  Ok (Written t)
  end end end end end.

(** rev_table_npairs, src/make_bitrev_table.c 51-59 *)
Definition rev_table_npairs (n k : Z) : res Z :=
  cfor (fuel n) 0 (fun i => i <? n) (fun i => u32 (i + 1)) (fun i c =>
    do r <- reverse i k;
    Ok (u32 (c + (if i <? r then 1 else 0)))) 0.

(** print_bitrev_table, src/make_bitrev_table.c 66-86: the list of printed
    pairs *)
Definition print_bitrev_table (n k : Z) : res (list (Z * Z)) :=
  cfor (fuel n) 0 (fun i => i <? n) (fun i => u32 (i + 1)) (fun i out =>
    do j <- reverse i k;
    Ok (if i <? j then out ++ [(i, j)] else out)) [].

(** main, src/make_bitrev_table.c 125-168: the constant BITREV<n>_NPAIRS and the
    table bitrev<n> *)
Definition make_bitrev_table (size : Z) : res (outcome (Z * list (Z * Z))) :=
  if size <=? 1 then Ok (Exit SizeTooSmall) else
  if 65535 <=? size then Ok (Exit SizeTooLarge) else
  let n := size in
  do lg <- logtwo n;
  match lg with None => Ok (Exit NotPowerOfTwo) | Some log_n =>
  do m <- rev_table_npairs n log_n;
  do t <- print_bitrev_table n log_n;
  Ok (Written (m, t))
  end.
