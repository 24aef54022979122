(** The program src/test_ntt_red.c (make target test_ntt_red).

    exit(1) is [Err Exited].  The values returned by cpucycles() are a parameter:
    [clk i] for call number [i].  Local arrays are not initialised: [stk c n] is what
    the array of [n] elements of call number [c] of test_simple_polys and speed_test
    contains at first.  Printing is not modelled.  The code between #if 0 and #endif
    (lines 207-258) is left out. *)

From Coq Require Import ZArith List Bool.
From Verif Require Import CSem ModelRed ModelNtt ModelGen ModelTests ModelTestTables.
Import ListNotations.
Open Scope Z_scope.

(** bitrev_shuffle128 .. bitrev_shuffle2048, lines 89-107 *)
Definition bitrev_shuffle128 (a : list Z) : res (list Z) := shuffle_with_table a bitrev128_pair BITREV128_NPAIRS.
Definition bitrev_shuffle256 (a : list Z) : res (list Z) := shuffle_with_table a bitrev256_pair BITREV256_NPAIRS.
Definition bitrev_shuffle512 (a : list Z) : res (list Z) := shuffle_with_table a bitrev512_pair BITREV512_NPAIRS.
Definition bitrev_shuffle1024 (a : list Z) : res (list Z) := shuffle_with_table a bitrev1024_pair BITREV1024_NPAIRS.
Definition bitrev_shuffle2048 (a : list Z) : res (list Z) := shuffle_with_table a bitrev2048_pair BITREV2048_NPAIRS.

(** test_simple_polys, lines 178-204.  power (119-131), check_ntt_simple (139-150) and
    check_ntt_ntt_simple (158-170) have the same text as in test_ntt_red1024.c; they are
    those of [ModelTests].  [a0]: first contents of the local array. *)
Definition test_simple_polys (a0 : list Z) (n : Z) (f : list Z -> res (list Z)) (omega : Z) : res unit :=
  do _ <- loop n (fun j a =>
    do a <- loop n (fun i a => wr a i 0) a;
    do a <- wr a j 1;
    do a <- f a;
    do ok <- check_ntt_simple a n j omega;
    do _ <- expect ok;
    do a <- f a;
    do ok <- check_ntt_ntt_simple a n j;
    do _ <- expect ok;
    Ok a) a0;
  Ok tt.

(** speed_test, lines 263-287.  Lines 276-284, average_time (34-43) and median_time
    (46-58) have the same text as in test_ntt_red1024.c: [report]. *)
Definition speed_test (clk : Z -> Z) (a0 : list Z) (n : Z) (f : list Z -> res (list Z)) (t : list Z) (c : Z) :
  res (list Z * Z) :=
  do _ <- cassert (n <=? 12289);
  do a <- loop n (fun i a => wr a i (to_i32 i)) a0;
  do '(t, _, c) <- loop NTESTS (fun i '(t, a, c) =>
    do t <- wr t i (clk c);
    do a <- f a;
    Ok (t, a, c + 1)) (t, a, c);
  report clk t c.

(** ** Functions to test, lines 294-633

    The 48 functions have two forms.  The first shuffles before the transform, the
    second normalizes and then shuffles after it. *)
Definition rev2std (n : Z) (shuffle : list Z -> res (list Z)) (f : list Z -> Z -> list Z -> res (list Z)) (p : list Z)
  (a : list Z) : res (list Z) :=
  do a <- shift_array a n;
  do a <- shuffle a;
  do a <- f a n p;
  normalize a n.
Definition std2rev (n : Z) (shuffle : list Z -> res (list Z)) (f : list Z -> Z -> list Z -> res (list Z)) (p : list Z)
  (a : list Z) : res (list Z) :=
  do a <- shift_array a n;
  do a <- f a n p;
  do a <- normalize a n;
  shuffle a.

(** Size 16, lines 294-348 *)
Definition ntt16_red_ct_rev2std := rev2std 16 (fun a => bitrev_shuffle a 16) ntt_red_ct_rev2std shoup_sred_ntt16_12289.
Definition ntt16_red_ct_std2rev := std2rev 16 (fun a => bitrev_shuffle a 16) ntt_red_ct_std2rev rev_shoup_sred_ntt16_12289.
Definition ntt16_red_gs_rev2std := rev2std 16 (fun a => bitrev_shuffle a 16) ntt_red_gs_rev2std rev_shoup_sred_ntt16_12289.
Definition ntt16_red_gs_std2rev := std2rev 16 (fun a => bitrev_shuffle a 16) ntt_red_gs_std2rev shoup_sred_ntt16_12289.
Definition mulntt16_red_ct_rev2std := rev2std 16 (fun a => bitrev_shuffle a 16) mulntt_red_ct_rev2std shoup_sred_ntt16_12289.
Definition mulntt16_red_ct_std2rev := std2rev 16 (fun a => bitrev_shuffle a 16) mulntt_red_ct_std2rev rev_shoup_sred_ntt16_12289.
Definition nttmul16_red_gs_rev2std := rev2std 16 (fun a => bitrev_shuffle a 16) nttmul_red_gs_rev2std rev_shoup_sred_ntt16_12289.
Definition nttmul16_red_gs_std2rev := std2rev 16 (fun a => bitrev_shuffle a 16) nttmul_red_gs_std2rev shoup_sred_ntt16_12289.

(** Size 128, lines 351-405 *)
Definition ntt128_red_ct_rev2std := rev2std 128 bitrev_shuffle128 ntt_red_ct_rev2std shoup_sred_ntt128_12289.
Definition ntt128_red_ct_std2rev := std2rev 128 bitrev_shuffle128 ntt_red_ct_std2rev rev_shoup_sred_ntt128_12289.
Definition ntt128_red_gs_rev2std := rev2std 128 bitrev_shuffle128 ntt_red_gs_rev2std rev_shoup_sred_ntt128_12289.
Definition ntt128_red_gs_std2rev := std2rev 128 bitrev_shuffle128 ntt_red_gs_std2rev shoup_sred_ntt128_12289.
Definition mulntt128_red_ct_rev2std := rev2std 128 (fun a => bitrev_shuffle a 128) mulntt_red_ct_rev2std shoup_sred_ntt128_12289.
Definition mulntt128_red_ct_std2rev := std2rev 128 (fun a => bitrev_shuffle a 128) mulntt_red_ct_std2rev rev_shoup_sred_ntt128_12289.
Definition nttmul128_red_gs_rev2std := rev2std 128 (fun a => bitrev_shuffle a 128) nttmul_red_gs_rev2std rev_shoup_sred_ntt128_12289.
Definition nttmul128_red_gs_std2rev := std2rev 128 (fun a => bitrev_shuffle a 128) nttmul_red_gs_std2rev shoup_sred_ntt128_12289.

(** Size 256, lines 408-462 *)
Definition ntt256_red_ct_rev2std := rev2std 256 bitrev_shuffle256 ntt_red_ct_rev2std shoup_sred_ntt256_12289.
Definition ntt256_red_ct_std2rev := std2rev 256 bitrev_shuffle256 ntt_red_ct_std2rev rev_shoup_sred_ntt256_12289.
Definition ntt256_red_gs_rev2std := rev2std 256 bitrev_shuffle256 ntt_red_gs_rev2std rev_shoup_sred_ntt256_12289.
Definition ntt256_red_gs_std2rev := std2rev 256 bitrev_shuffle256 ntt_red_gs_std2rev shoup_sred_ntt256_12289.
Definition mulntt256_red_ct_rev2std := rev2std 256 (fun a => bitrev_shuffle a 256) mulntt_red_ct_rev2std shoup_sred_ntt256_12289.
Definition mulntt256_red_ct_std2rev := std2rev 256 (fun a => bitrev_shuffle a 256) mulntt_red_ct_std2rev rev_shoup_sred_ntt256_12289.
Definition nttmul256_red_gs_rev2std := rev2std 256 (fun a => bitrev_shuffle a 256) nttmul_red_gs_rev2std rev_shoup_sred_ntt256_12289.
Definition nttmul256_red_gs_std2rev := std2rev 256 (fun a => bitrev_shuffle a 256) nttmul_red_gs_std2rev shoup_sred_ntt256_12289.

(** Size 512, lines 465-519 *)
Definition ntt512_red_ct_rev2std := rev2std 512 bitrev_shuffle512 ntt_red_ct_rev2std shoup_sred_ntt512_12289.
Definition ntt512_red_ct_std2rev := std2rev 512 bitrev_shuffle512 ntt_red_ct_std2rev rev_shoup_sred_ntt512_12289.
Definition ntt512_red_gs_rev2std := rev2std 512 bitrev_shuffle512 ntt_red_gs_rev2std rev_shoup_sred_ntt512_12289.
Definition ntt512_red_gs_std2rev := std2rev 512 bitrev_shuffle512 ntt_red_gs_std2rev shoup_sred_ntt512_12289.
Definition mulntt512_red_ct_rev2std := rev2std 512 (fun a => bitrev_shuffle a 512) mulntt_red_ct_rev2std shoup_sred_ntt512_12289.
Definition mulntt512_red_ct_std2rev := std2rev 512 (fun a => bitrev_shuffle a 512) mulntt_red_ct_std2rev rev_shoup_sred_ntt512_12289.
Definition nttmul512_red_gs_rev2std := rev2std 512 (fun a => bitrev_shuffle a 512) nttmul_red_gs_rev2std rev_shoup_sred_ntt512_12289.
Definition nttmul512_red_gs_std2rev := std2rev 512 (fun a => bitrev_shuffle a 512) nttmul_red_gs_std2rev shoup_sred_ntt512_12289.

(** Size 1024, lines 522-576 *)
Definition ntt1024_red_ct_rev2std := rev2std 1024 bitrev_shuffle1024 ntt_red_ct_rev2std shoup_sred_ntt1024_12289.
Definition ntt1024_red_ct_std2rev := std2rev 1024 bitrev_shuffle1024 ntt_red_ct_std2rev rev_shoup_sred_ntt1024_12289.
Definition ntt1024_red_gs_rev2std := rev2std 1024 bitrev_shuffle1024 ntt_red_gs_rev2std rev_shoup_sred_ntt1024_12289.
Definition ntt1024_red_gs_std2rev := std2rev 1024 bitrev_shuffle1024 ntt_red_gs_std2rev shoup_sred_ntt1024_12289.
Definition mulntt1024_red_ct_rev2std := rev2std 1024 (fun a => bitrev_shuffle a 1024) mulntt_red_ct_rev2std shoup_sred_ntt1024_12289.
Definition mulntt1024_red_ct_std2rev := std2rev 1024 (fun a => bitrev_shuffle a 1024) mulntt_red_ct_std2rev rev_shoup_sred_ntt1024_12289.
Definition nttmul1024_red_gs_rev2std := rev2std 1024 (fun a => bitrev_shuffle a 1024) nttmul_red_gs_rev2std rev_shoup_sred_ntt1024_12289.
Definition nttmul1024_red_gs_std2rev := std2rev 1024 (fun a => bitrev_shuffle a 1024) nttmul_red_gs_std2rev shoup_sred_ntt1024_12289.

(** Size 2048, lines 579-633 *)
Definition ntt2048_red_ct_rev2std := rev2std 2048 bitrev_shuffle2048 ntt_red_ct_rev2std shoup_sred_ntt2048_12289.
Definition ntt2048_red_ct_std2rev := std2rev 2048 bitrev_shuffle2048 ntt_red_ct_std2rev rev_shoup_sred_ntt2048_12289.
Definition ntt2048_red_gs_rev2std := rev2std 2048 bitrev_shuffle2048 ntt_red_gs_rev2std rev_shoup_sred_ntt2048_12289.
Definition ntt2048_red_gs_std2rev := std2rev 2048 bitrev_shuffle2048 ntt_red_gs_std2rev shoup_sred_ntt2048_12289.
Definition mulntt2048_red_ct_rev2std := rev2std 2048 (fun a => bitrev_shuffle a 2048) mulntt_red_ct_rev2std shoup_sred_ntt2048_12289.
Definition mulntt2048_red_ct_std2rev := std2rev 2048 (fun a => bitrev_shuffle a 2048) mulntt_red_ct_std2rev rev_shoup_sred_ntt2048_12289.
Definition nttmul2048_red_gs_rev2std := rev2std 2048 (fun a => bitrev_shuffle a 2048) nttmul_red_gs_rev2std rev_shoup_sred_ntt2048_12289.
Definition nttmul2048_red_gs_std2rev := std2rev 2048 (fun a => bitrev_shuffle a 2048) nttmul_red_gs_std2rev shoup_sred_ntt2048_12289.

(** The functions measured, lines 639-784, are the transform or normalize alone *)
Definition speed (n : Z) (f : list Z -> Z -> list Z -> res (list Z)) (p a : list Z) : res (list Z) := f a n p.

Section Program.
Variables (clk : Z -> Z) (stk : Z -> Z -> list Z).

(** Tests of size 16, main, lines 790-797 *)
Definition tests16 : res unit :=
  do _ <- test_simple_polys (stk 0 16) 16 ntt16_red_ct_rev2std 6553;
  do _ <- test_simple_polys (stk 1 16) 16 ntt16_red_ct_std2rev 6553;
  do _ <- test_simple_polys (stk 2 16) 16 ntt16_red_gs_rev2std 6553;
  do _ <- test_simple_polys (stk 3 16) 16 ntt16_red_gs_std2rev 6553;
  do _ <- test_simple_polys (stk 4 16) 16 mulntt16_red_ct_rev2std 6553;
  do _ <- test_simple_polys (stk 5 16) 16 mulntt16_red_ct_std2rev 6553;
  do _ <- test_simple_polys (stk 6 16) 16 nttmul16_red_gs_rev2std 6553;
  test_simple_polys (stk 7 16) 16 nttmul16_red_gs_std2rev 6553.

(** Tests of size 128, main, lines 801-808 *)
Definition tests128 : res unit :=
  do _ <- test_simple_polys (stk 8 128) 128 ntt128_red_ct_rev2std 12208;
  do _ <- test_simple_polys (stk 9 128) 128 ntt128_red_ct_std2rev 12208;
  do _ <- test_simple_polys (stk 10 128) 128 ntt128_red_gs_rev2std 12208;
  do _ <- test_simple_polys (stk 11 128) 128 ntt128_red_gs_std2rev 12208;
  do _ <- test_simple_polys (stk 12 128) 128 mulntt128_red_ct_rev2std 12208;
  do _ <- test_simple_polys (stk 13 128) 128 mulntt128_red_ct_std2rev 12208;
  do _ <- test_simple_polys (stk 14 128) 128 nttmul128_red_gs_rev2std 12208;
  test_simple_polys (stk 15 128) 128 nttmul128_red_gs_std2rev 12208.

(** Tests of size 256, main, lines 812-819 *)
Definition tests256 : res unit :=
  do _ <- test_simple_polys (stk 16 256) 256 ntt256_red_ct_rev2std 8595;
  do _ <- test_simple_polys (stk 17 256) 256 ntt256_red_ct_std2rev 8595;
  do _ <- test_simple_polys (stk 18 256) 256 ntt256_red_gs_rev2std 8595;
  do _ <- test_simple_polys (stk 19 256) 256 ntt256_red_gs_std2rev 8595;
  do _ <- test_simple_polys (stk 20 256) 256 mulntt256_red_ct_rev2std 8595;
  do _ <- test_simple_polys (stk 21 256) 256 mulntt256_red_ct_std2rev 8595;
  do _ <- test_simple_polys (stk 22 256) 256 nttmul256_red_gs_rev2std 8595;
  test_simple_polys (stk 23 256) 256 nttmul256_red_gs_std2rev 8595.

(** Tests of size 512, main, lines 823-830 *)
Definition tests512 : res unit :=
  do _ <- test_simple_polys (stk 24 512) 512 ntt512_red_ct_rev2std 10600;
  do _ <- test_simple_polys (stk 25 512) 512 ntt512_red_ct_std2rev 10600;
  do _ <- test_simple_polys (stk 26 512) 512 ntt512_red_gs_rev2std 10600;
  do _ <- test_simple_polys (stk 27 512) 512 ntt512_red_gs_std2rev 10600;
  do _ <- test_simple_polys (stk 28 512) 512 mulntt512_red_ct_rev2std 10600;
  do _ <- test_simple_polys (stk 29 512) 512 mulntt512_red_ct_std2rev 10600;
  do _ <- test_simple_polys (stk 30 512) 512 nttmul512_red_gs_rev2std 10600;
  test_simple_polys (stk 31 512) 512 nttmul512_red_gs_std2rev 10600.

(** Tests of size 1024, main, lines 834-841 *)
Definition tests1024 : res unit :=
  do _ <- test_simple_polys (stk 32 1024) 1024 ntt1024_red_ct_rev2std 8209;
  do _ <- test_simple_polys (stk 33 1024) 1024 ntt1024_red_ct_std2rev 8209;
  do _ <- test_simple_polys (stk 34 1024) 1024 ntt1024_red_gs_rev2std 8209;
  do _ <- test_simple_polys (stk 35 1024) 1024 ntt1024_red_gs_std2rev 8209;
  do _ <- test_simple_polys (stk 36 1024) 1024 mulntt1024_red_ct_rev2std 8209;
  do _ <- test_simple_polys (stk 37 1024) 1024 mulntt1024_red_ct_std2rev 8209;
  do _ <- test_simple_polys (stk 38 1024) 1024 nttmul1024_red_gs_rev2std 8209;
  test_simple_polys (stk 39 1024) 1024 nttmul1024_red_gs_std2rev 8209.

(** Tests of size 2048, main, lines 845-852 *)
Definition tests2048 : res unit :=
  do _ <- test_simple_polys (stk 40 2048) 2048 ntt2048_red_ct_rev2std 12269;
  do _ <- test_simple_polys (stk 41 2048) 2048 ntt2048_red_ct_std2rev 12269;
  do _ <- test_simple_polys (stk 42 2048) 2048 ntt2048_red_gs_rev2std 12269;
  do _ <- test_simple_polys (stk 43 2048) 2048 ntt2048_red_gs_std2rev 12269;
  do _ <- test_simple_polys (stk 44 2048) 2048 mulntt2048_red_ct_rev2std 12269;
  do _ <- test_simple_polys (stk 45 2048) 2048 mulntt2048_red_ct_std2rev 12269;
  do _ <- test_simple_polys (stk 46 2048) 2048 nttmul2048_red_gs_rev2std 12269;
  test_simple_polys (stk 47 2048) 2048 nttmul2048_red_gs_std2rev 12269.

(** main, lines 856-859 *)
Definition speed_tests16 (t : list Z) (c : Z) : res (list Z * Z) :=
  do '(t, c) <- speed_test clk (stk 48 16) 16 (speed 16 ntt_red_ct_rev2std shoup_sred_ntt16_12289) t c;
  do '(t, c) <- speed_test clk (stk 49 16) 16 (speed 16 ntt_red_ct_std2rev rev_shoup_sred_ntt16_12289) t c;
  do '(t, c) <- speed_test clk (stk 50 16) 16 (speed 16 ntt_red_gs_rev2std rev_shoup_sred_ntt16_12289) t c;
  speed_test clk (stk 51 16) 16 (speed 16 ntt_red_gs_std2rev shoup_sred_ntt16_12289) t c.

(** main, lines 862-865 *)
Definition speed_tests128 (t : list Z) (c : Z) : res (list Z * Z) :=
  do '(t, c) <- speed_test clk (stk 52 128) 128 (speed 128 ntt_red_ct_rev2std shoup_sred_ntt128_12289) t c;
  do '(t, c) <- speed_test clk (stk 53 128) 128 (speed 128 ntt_red_ct_std2rev rev_shoup_sred_ntt128_12289) t c;
  do '(t, c) <- speed_test clk (stk 54 128) 128 (speed 128 ntt_red_gs_rev2std rev_shoup_sred_ntt128_12289) t c;
  speed_test clk (stk 55 128) 128 (speed 128 ntt_red_gs_std2rev shoup_sred_ntt128_12289) t c.

(** main, lines 868-871 *)
Definition speed_tests256 (t : list Z) (c : Z) : res (list Z * Z) :=
  do '(t, c) <- speed_test clk (stk 56 256) 256 (speed 256 ntt_red_ct_rev2std shoup_sred_ntt256_12289) t c;
  do '(t, c) <- speed_test clk (stk 57 256) 256 (speed 256 ntt_red_ct_std2rev rev_shoup_sred_ntt256_12289) t c;
  do '(t, c) <- speed_test clk (stk 58 256) 256 (speed 256 ntt_red_gs_rev2std rev_shoup_sred_ntt256_12289) t c;
  speed_test clk (stk 59 256) 256 (speed 256 ntt_red_gs_std2rev shoup_sred_ntt256_12289) t c.

(** main, lines 874-877 *)
Definition speed_tests512 (t : list Z) (c : Z) : res (list Z * Z) :=
  do '(t, c) <- speed_test clk (stk 60 512) 512 (speed 512 ntt_red_ct_rev2std shoup_sred_ntt512_12289) t c;
  do '(t, c) <- speed_test clk (stk 61 512) 512 (speed 512 ntt_red_ct_std2rev rev_shoup_sred_ntt512_12289) t c;
  do '(t, c) <- speed_test clk (stk 62 512) 512 (speed 512 ntt_red_gs_rev2std rev_shoup_sred_ntt512_12289) t c;
  speed_test clk (stk 63 512) 512 (speed 512 ntt_red_gs_std2rev shoup_sred_ntt512_12289) t c.

(** main, lines 880-883 *)
Definition speed_tests1024 (t : list Z) (c : Z) : res (list Z * Z) :=
  do '(t, c) <- speed_test clk (stk 64 1024) 1024 (speed 1024 ntt_red_ct_rev2std shoup_sred_ntt1024_12289) t c;
  do '(t, c) <- speed_test clk (stk 65 1024) 1024 (speed 1024 ntt_red_ct_std2rev rev_shoup_sred_ntt1024_12289) t c;
  do '(t, c) <- speed_test clk (stk 66 1024) 1024 (speed 1024 ntt_red_gs_rev2std rev_shoup_sred_ntt1024_12289) t c;
  speed_test clk (stk 67 1024) 1024 (speed 1024 ntt_red_gs_std2rev shoup_sred_ntt1024_12289) t c.

(** main, lines 886-889 *)
Definition speed_tests1024_mul (t : list Z) (c : Z) : res (list Z * Z) :=
  do '(t, c) <- speed_test clk (stk 68 1024) 1024 (speed 1024 mulntt_red_ct_rev2std shoup_sred_ntt1024_12289) t c;
  do '(t, c) <- speed_test clk (stk 69 1024) 1024 (speed 1024 mulntt_red_ct_std2rev rev_shoup_sred_ntt1024_12289) t c;
  do '(t, c) <- speed_test clk (stk 70 1024) 1024 (speed 1024 nttmul_red_gs_rev2std rev_shoup_sred_ntt1024_12289) t c;
  speed_test clk (stk 71 1024) 1024 (speed 1024 nttmul_red_gs_std2rev shoup_sred_ntt1024_12289) t c.

(** main, lines 892-895 *)
Definition speed_tests2048 (t : list Z) (c : Z) : res (list Z * Z) :=
  do '(t, c) <- speed_test clk (stk 72 2048) 2048 (speed 2048 ntt_red_ct_rev2std shoup_sred_ntt2048_12289) t c;
  do '(t, c) <- speed_test clk (stk 73 2048) 2048 (speed 2048 ntt_red_ct_std2rev rev_shoup_sred_ntt2048_12289) t c;
  do '(t, c) <- speed_test clk (stk 74 2048) 2048 (speed 2048 ntt_red_gs_rev2std rev_shoup_sred_ntt2048_12289) t c;
  speed_test clk (stk 75 2048) 2048 (speed 2048 ntt_red_gs_std2rev shoup_sred_ntt2048_12289) t c.

(** main, lines 898-901 *)
Definition speed_tests2048_mul (t : list Z) (c : Z) : res (list Z * Z) :=
  do '(t, c) <- speed_test clk (stk 76 2048) 2048 (speed 2048 mulntt_red_ct_rev2std shoup_sred_ntt2048_12289) t c;
  do '(t, c) <- speed_test clk (stk 77 2048) 2048 (speed 2048 mulntt_red_ct_std2rev rev_shoup_sred_ntt2048_12289) t c;
  do '(t, c) <- speed_test clk (stk 78 2048) 2048 (speed 2048 nttmul_red_gs_rev2std rev_shoup_sred_ntt2048_12289) t c;
  speed_test clk (stk 79 2048) 2048 (speed 2048 nttmul_red_gs_std2rev shoup_sred_ntt2048_12289) t c.

(** main, lines 904-906 *)
Definition speed_tests_normalize (t : list Z) (c : Z) : res (list Z * Z) :=
  do '(t, c) <- speed_test clk (stk 80 512) 512 (fun a => normalize a 512) t c;
  do '(t, c) <- speed_test clk (stk 81 1024) 1024 (fun a => normalize a 1024) t c;
  speed_test clk (stk 82 2048) 2048 (fun a => normalize a 2048) t c.

(** main, lines 788-910: the value it returns.  The array t is all 0 at first *)
Definition main : res Z :=
  do _ <- tests16;
  do _ <- tests128;
  do _ <- tests256;
  do _ <- tests512;
  do _ <- tests1024;
  do _ <- tests2048;
  do '(t, c) <- speed_tests16 (repeat 0 (Z.to_nat NTESTS)) 0;
  do '(t, c) <- speed_tests128 t c;
  do '(t, c) <- speed_tests256 t c;
  do '(t, c) <- speed_tests512 t c;
  do '(t, c) <- speed_tests1024 t c;
  do '(t, c) <- speed_tests1024_mul t c;
  do '(t, c) <- speed_tests2048 t c;
  do '(t, c) <- speed_tests2048_mul t c;
  do '(t, c) <- speed_tests_normalize t c;
  Ok 0.
End Program.
