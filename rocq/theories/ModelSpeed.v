(** The programs speed_mul1024.c, speed_mul1024_naive.c, speed_mul1024_red.c and
    speed_mul1024_red_asm.c of src.

    The four files are copies of one program and differ in the five product functions
    they call.  Lines are those of speed_mul1024_red.c.  As in ModelTests the values of
    cpucycles() are a parameter, [clk i] for call number [i], the contents of the local
    arrays at first are a parameter, [stk], and printing is not modelled. *)

From Coq Require Import ZArith List.
From Verif Require Import CSem ModelNtt ModelNaive ModelRed ModelGen ModelProducts ModelAvxProd ModelSort ModelTests.
Import ListNotations.
Open Scope Z_scope.

Section Program.
Variables (clk : Z -> Z) (stk : heap).

(** print_results, lines 54-66; [c] is its second argument.  The functions median_time
    (lines 40-52) and average_time (lines 28-37) are those of the test programs. *)
Definition print_results (t : list Z) (c : Z) : res (list Z) :=
  do t <- loop (NTESTS - 1) (fun i t =>
    do x <- rd t (u32 (i + 1));
    do y <- rd t i;
    wr t i (u64 (x - y))) t;
  do y <- rd t (NTESTS - 1);
  do t <- wr t (NTESTS - 1) (u64 (c - y));
  do '(t, _) <- median_time t;
  do _ <- average_time t;
  Ok t.

(** One of the five parts of test_mul, lines 72-81; the arrays a, b, c are 0, 1, 2,
    the state is the array t, these arrays and the number of calls of cpucycles() *)
Definition measure (f : heap -> Z -> Z -> Z -> res heap) (s : list Z * heap * Z) : res (list Z * heap * Z) :=
  let '(t, h, c) := s in
  do h <- loop 1024 (fun i h =>
    do a <- wr (h 0) i (to_i32 i);
    let h := hset h 0 a in
    do b <- wr (h 1) i (to_i32 i);
    Ok (hset h 1 b)) h;
  do '(t, h, c) <- loop NTESTS (fun i '(t, h, c) =>
    do t <- wr t i (clk c);
    do h <- f h 2 0 1;
    Ok (t, h, c + 1)) (t, h, c);
  do t <- print_results t (clk c);
  Ok (t, h, c + 1).

(** test_mul, lines 68-126, and main, lines 128-132: the value main returns.  The array
    t is all 0 at first (line 25). *)
Definition speed_main (f1 f2 f3 f4 f5 : heap -> Z -> Z -> Z -> res heap) : res Z :=
  do s <- measure f1 (repeat 0 (Z.to_nat NTESTS), stk, 0);
  do s <- measure f2 s;
  do s <- measure f3 s;
  do s <- measure f4 s;
  do _ <- measure f5 s;
  Ok 0.

(** speed_mul1024.c 79, 90, 101, 112, 123 *)
Definition speed_mul1024_main (T : tables) : res Z :=
  speed_main (ntt_product1 1024 T) (ntt_product2 1024 T) (ntt_product3 1024 T) (ntt_product4 1024 T)
    (ntt_product5 1024 T).
(** speed_mul1024_naive.c 79, 90, 101, 112, 123 *)
Definition speed_mul1024_naive_main (T : tables) : res Z :=
  speed_main (naive_product1 1024 T) (naive_product2 1024 T) (naive_product3 1024 T) (naive_product4 1024 T)
    (naive_product5 1024 T).
(** speed_mul1024_red.c 79, 90, 101, 112, 123 *)
Definition speed_mul1024_red_main (T : red_tables) : res Z :=
  speed_main (red_product1 false 1024 T) (red_product2 false 1024 T) (red_product3 false 1024 T)
    (red_product4 false 1024 T) (red_product5 false 1024 T).
(** speed_mul1024_red_asm.c 79, 90, 101, 112, 123 *)
Definition speed_mul1024_red_asm_main (T : red_tables) : res Z :=
  speed_main (red1024_product1_asm 1024 T) (red_product2_asm false 1024 T) (red_product3_asm false 1024 T)
    (red_product4_asm false 1024 T) (red_product5_asm false 1024 T).
End Program.
