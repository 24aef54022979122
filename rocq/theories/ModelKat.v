(** The programs kat_mul1024.c, kat_mul1024_red.c and kat_mul1024_red_asm.c of src, with
    build_kat of data_poly1024.c.

    The three files are copies of one program and differ in the five product functions
    they call.  Lines are those of kat_mul1024.c.  The 300 arrays a0, b0, c0, ..., c99 of
    data_poly1024.c (lines 19-617) are a parameter, [da i], [db i], [dc i] for number [i].
    The contents of the local arrays at first are a parameter, [stk], and printing is not
    modelled. *)

From Coq Require Import ZArith List.
From Verif Require Import CSem ModelNtt ModelRed ModelGen ModelProducts ModelAvxProd ModelTests.
Import ListNotations.
Open Scope Z_scope.

(** data_poly1024.h 10-11 *)
Definition REPETITIONS : Z := 100.
Definition N : Z := 1025.

(** copy_poly, lines 21-27 *)
Definition copy_poly (a b : list Z) : res (list Z) :=
  loop 1024 (fun i a => do x <- rd b i; wr a i x) a.

Section Program.
Variables (da db dc : Z -> list Z) (stk : heap).

(** The arrays a, b, c of data_poly1024.c 17: row [i] is number [i]; all 0 at first *)
Definition zero_rows : heap := fun _ => repeat 0 (Z.to_nat N).

(** build_kat, data_poly1024.c 619-1021: 100 times the lines 622-624.  The writes to [a],
    [b], [c] are done one array after the other. *)
Definition build_rows (d : Z -> list Z) : res heap :=
  loop REPETITIONS (fun i h =>
    do r <- copy_poly (h i) (d i);
    Ok (hset h i r)) zero_rows.
Definition build_kat : res (heap * heap * heap) :=
  do a <- build_rows da;
  do b <- build_rows db;
  do c <- build_rows dc;
  Ok (a, b, c).

(** test_mul_from_KAT_values, lines 29-46; ua, ub, uc are 0, 1, 2.  The counters i, j have
    type int; they stay below 1025. *)
Definition test_mul_from_KAT_values (k : heap * heap * heap) (f : heap -> Z -> Z -> Z -> res heap) : res unit :=
  let '(a, b, c) := k in
  do _ <- loop REPETITIONS (fun i h =>
    do x <- copy_poly (h 0) (a i);
    let h := hset h 0 x in
    do y <- copy_poly (h 1) (b i);
    let h := hset h 1 y in
    do h <- f h 2 0 1;
    do _ <- loop 1024 (fun j (_ : unit) =>
      do u <- rd (h 2) j;
      do v <- rd (c i) j;
      if u =? v then Ok tt else Err Exited) tt;
    Ok h) stk;
  Ok tt.

(** main, lines 48-67: the value it returns *)
Definition kat_main (f1 f2 f3 f4 f5 : heap -> Z -> Z -> Z -> res heap) : res Z :=
  do k <- build_kat;
  do _ <- test_mul_from_KAT_values k f1;
  do _ <- test_mul_from_KAT_values k f2;
  do _ <- test_mul_from_KAT_values k f3;
  do _ <- test_mul_from_KAT_values k f4;
  do _ <- test_mul_from_KAT_values k f5;
  Ok 0.

(** kat_mul1024.c 52, 55, 58, 61, 64 *)
Definition kat_mul1024_main (T : tables) : res Z :=
  kat_main (ntt_product1 1024 T) (ntt_product2 1024 T) (ntt_product3 1024 T) (ntt_product4 1024 T)
    (ntt_product5 1024 T).
(** kat_mul1024_red.c 53, 56, 59, 62, 65 *)
Definition kat_mul1024_red_main (T : red_tables) : res Z :=
  kat_main (red_product1 false 1024 T) (red_product2 false 1024 T) (red_product3 false 1024 T)
    (red_product4 false 1024 T) (red_product5 false 1024 T).
(** kat_mul1024_red_asm.c 53, 56, 59, 62, 65 *)
Definition kat_mul1024_red_asm_main (T : red_tables) : res Z :=
  kat_main (red1024_product1_asm 1024 T) (red_product2_asm false 1024 T) (red_product3_asm false 1024 T)
    (red_product4_asm false 1024 T) (red_product5_asm false 1024 T).
End Program.
