(** The program src/test_ntt.c (make target test_ntt).

    Conventions as in [ModelTestNttRed].  The functions average_time (32-41), median_time
    (44-56), bitrev_shuffle256 .. bitrev_shuffle1024 (87-97), power (110-122),
    check_ntt_simple (130-141), check_ntt_ntt_simple (149-161), test_simple_polys
    (169-195) and speed_test (250-274) have the same text as in src/test_ntt_red.c,
    equal_arrays (201-208) as in src/test_ntt_red1024.c; they are those of
    [ModelTestNttRed] and [ModelTests].  The other static functions are
    translated line by line. *)

From Coq Require Import ZArith List Bool.
From Verif Require Import CSem ModelNtt ModelTests ModelTestTables ModelTestNttRed.
Import ListNotations.
Open Scope Z_scope.

(** cross_check, lines 215-245.  [a0] and [b0]: first contents of the local arrays *)
Definition cross_check (a0 b0 : list Z) (n : Z) (f g : list Z -> res (list Z)) : res unit :=
  do _ <- loop n (fun j '(a, b) =>
    do '(a, b) <- loop n (fun i '(a, b) =>
      do a <- wr a i 0;
      do b <- wr b i 0;
      Ok (a, b)) (a, b);
    do a <- wr a j 1;
    do b <- wr b j 1;
    do a <- f a;
    do b <- g b;
    do ok <- equal_arrays a b n;
    do _ <- expect ok;
    do a <- f a;
    do b <- g b;
    do ok <- equal_arrays a b n;
    do _ <- expect ok;
    Ok (a, b)) (a0, b0);
  Ok tt.

(** lines 281-284 *)
Definition ntt16_v1 (a : list Z) : res (list Z) := do a <- bitrev_shuffle a 16; ntt_ct_rev2std_v1 a 16 psi_powers_ntt16_12289.
(** lines 286-289 *)
Definition ntt16_v2 (a : list Z) : res (list Z) := do a <- bitrev_shuffle a 16; ntt_ct_rev2std a 16 shoup_ntt16_12289.
(** lines 291-294 *)
Definition ntt16_v3 (a : list Z) : res (list Z) := do a <- bitrev_shuffle a 16; mulntt_ct_rev2std a 16 shoup_ntt16_12289.
(** lines 296-299 *)
Definition ntt16_v4 (a : list Z) : res (list Z) := do a <- ntt_ct_std2rev a 16 rev_shoup_ntt16_12289; bitrev_shuffle a 16.
(** lines 301-304 *)
Definition ntt16_v5 (a : list Z) : res (list Z) := do a <- mulntt_ct_std2rev a 16 rev_shoup_ntt16_12289; bitrev_shuffle a 16.
(** lines 306-309 *)
Definition ntt16_v6 (a : list Z) : res (list Z) := do a <- bitrev_shuffle a 16; ntt_gs_rev2std a 16 rev_shoup_ntt16_12289.
(** lines 311-314 *)
Definition ntt16_v7 (a : list Z) : res (list Z) := do a <- bitrev_shuffle a 16; nttmul_gs_rev2std a 16 rev_shoup_ntt16_12289.
(** lines 316-319 *)
Definition ntt16_v8 (a : list Z) : res (list Z) := do a <- ntt_gs_std2rev a 16 shoup_ntt16_12289; bitrev_shuffle a 16.
(** lines 321-324 *)
Definition ntt16_v9 (a : list Z) : res (list Z) := do a <- nttmul_gs_std2rev a 16 shoup_ntt16_12289; bitrev_shuffle a 16.
(** lines 327-330 *)
Definition ntt256_v1 (a : list Z) : res (list Z) := do a <- bitrev_shuffle256 a; ntt_ct_rev2std_v1 a 256 psi_powers_ntt256_12289.
(** lines 332-335 *)
Definition ntt256_v2 (a : list Z) : res (list Z) := do a <- bitrev_shuffle256 a; ntt_ct_rev2std a 256 shoup_ntt256_12289.
(** lines 337-340 *)
Definition ntt256_v3 (a : list Z) : res (list Z) := do a <- ntt_ct_std2rev a 256 rev_shoup_ntt256_12289; bitrev_shuffle256 a.
(** lines 342-345 *)
Definition ntt256_v4 (a : list Z) : res (list Z) := do a <- bitrev_shuffle256 a; ntt_gs_rev2std a 256 rev_shoup_ntt256_12289.
(** lines 347-350 *)
Definition ntt256_v5 (a : list Z) : res (list Z) := do a <- bitrev_shuffle256 a; nttmul_gs_rev2std a 256 rev_shoup_ntt256_12289.
(** lines 353-356 *)
Definition ntt512_v1 (a : list Z) : res (list Z) := do a <- bitrev_shuffle512 a; ntt_ct_rev2std_v1 a 512 psi_powers_ntt512_12289.
(** lines 358-361 *)
Definition ntt512_v2 (a : list Z) : res (list Z) := do a <- bitrev_shuffle512 a; ntt_ct_rev2std a 512 shoup_ntt512_12289.
(** lines 363-366 *)
Definition ntt512_v3 (a : list Z) : res (list Z) := do a <- ntt_ct_std2rev a 512 rev_shoup_ntt512_12289; bitrev_shuffle512 a.
(** lines 368-371 *)
Definition ntt512_v4 (a : list Z) : res (list Z) := do a <- bitrev_shuffle512 a; ntt_gs_rev2std a 512 rev_shoup_ntt512_12289.
(** lines 373-376 *)
Definition ntt512_v5 (a : list Z) : res (list Z) := do a <- bitrev_shuffle512 a; nttmul_gs_rev2std a 512 rev_shoup_ntt512_12289.
(** lines 379-382 *)
Definition ntt1024_v1 (a : list Z) : res (list Z) := do a <- bitrev_shuffle1024 a; ntt_ct_rev2std_v1 a 1024 psi_powers_ntt1024_12289.
(** lines 384-387 *)
Definition ntt1024_v2 (a : list Z) : res (list Z) := do a <- bitrev_shuffle1024 a; ntt_ct_rev2std a 1024 shoup_ntt1024_12289.
(** lines 389-392 *)
Definition ntt1024_v3 (a : list Z) : res (list Z) := do a <- ntt_ct_std2rev a 1024 rev_shoup_ntt1024_12289; bitrev_shuffle1024 a.
(** lines 394-397 *)
Definition ntt1024_v4 (a : list Z) : res (list Z) := do a <- bitrev_shuffle1024 a; ntt_gs_rev2std a 1024 rev_shoup_ntt1024_12289.
(** lines 399-402 *)
Definition ntt1024_v5 (a : list Z) : res (list Z) := do a <- bitrev_shuffle1024 a; nttmul_gs_rev2std a 1024 rev_shoup_ntt1024_12289.
(** lines 409-413 *)
Definition mul_then_ntt16 (a : list Z) : res (list Z) := do a <- mul_array16 a 16 psi_powers_ntt16_12289; do a <- bitrev_shuffle a 16; ntt_ct_rev2std_v1 a 16 psi_powers_ntt16_12289.
(** lines 415-418 *)
Definition combined_mulntt16 (a : list Z) : res (list Z) := do a <- bitrev_shuffle a 16; mulntt_ct_rev2std a 16 shoup_scaled_ntt16_12289.
(** lines 420-423 *)
Definition mul_then_ntt16_rev (a : list Z) : res (list Z) := do a <- mul_array16 a 16 psi_powers_ntt16_12289; ntt_ct_std2rev a 16 rev_shoup_ntt16_12289.
(** lines 425-427 *)
Definition combined_mulntt16_rev (a : list Z) : res (list Z) := mulntt_ct_std2rev a 16 rev_shoup_scaled_ntt16_12289.
(** lines 429-433 *)
Definition ntt_then_mul16 (a : list Z) : res (list Z) := do a <- bitrev_shuffle a 16; do a <- ntt_ct_rev2std a 16 shoup_ntt16_12289; mul_array16 a 16 psi_powers_ntt16_12289.
(** lines 435-438 *)
Definition combined_nttmul16 (a : list Z) : res (list Z) := do a <- bitrev_shuffle a 16; nttmul_gs_rev2std a 16 rev_shoup_scaled_ntt16_12289.
(** lines 440-444 *)
Definition ntt_then_mul16_rev (a : list Z) : res (list Z) := do a <- ntt_ct_std2rev a 16 rev_shoup_ntt16_12289; do a <- bitrev_shuffle a 16; mul_array16 a 16 psi_powers_ntt16_12289.
(** lines 446-449 *)
Definition combined_nttmul16_rev (a : list Z) : res (list Z) := do a <- nttmul_gs_std2rev a 16 shoup_scaled_ntt16_12289; bitrev_shuffle a 16.
(** lines 452-456 *)
Definition mul_then_ntt256 (a : list Z) : res (list Z) := do a <- mul_array16 a 256 psi_powers_ntt256_12289; do a <- bitrev_shuffle256 a; ntt_ct_rev2std_v1 a 256 psi_powers_ntt256_12289.
(** lines 458-461 *)
Definition combined_mulntt256 (a : list Z) : res (list Z) := do a <- bitrev_shuffle256 a; mulntt_ct_rev2std a 256 shoup_scaled_ntt256_12289.
(** lines 463-466 *)
Definition mul_then_ntt256_rev (a : list Z) : res (list Z) := do a <- mul_array16 a 256 psi_powers_ntt256_12289; ntt_ct_std2rev a 256 rev_shoup_ntt256_12289.
(** lines 468-470 *)
Definition combined_mulntt256_rev (a : list Z) : res (list Z) := mulntt_ct_std2rev a 256 rev_shoup_scaled_ntt256_12289.
(** lines 472-476 *)
Definition ntt_then_mul256 (a : list Z) : res (list Z) := do a <- bitrev_shuffle256 a; do a <- ntt_ct_rev2std a 256 shoup_ntt256_12289; mul_array16 a 256 psi_powers_ntt256_12289.
(** lines 478-481 *)
Definition combined_nttmul256 (a : list Z) : res (list Z) := do a <- bitrev_shuffle256 a; nttmul_gs_rev2std a 256 rev_shoup_scaled_ntt256_12289.
(** lines 483-487 *)
Definition ntt_then_mul256_rev (a : list Z) : res (list Z) := do a <- ntt_ct_std2rev a 256 rev_shoup_ntt256_12289; do a <- bitrev_shuffle a 256; mul_array16 a 256 psi_powers_ntt256_12289.
(** lines 489-492 *)
Definition combined_nttmul256_rev (a : list Z) : res (list Z) := do a <- nttmul_gs_std2rev a 256 shoup_scaled_ntt256_12289; bitrev_shuffle a 256.
(** lines 495-499 *)
Definition mul_then_ntt512 (a : list Z) : res (list Z) := do a <- mul_array16 a 512 psi_powers_ntt512_12289; do a <- bitrev_shuffle512 a; ntt_ct_rev2std_v1 a 512 psi_powers_ntt512_12289.
(** lines 501-504 *)
Definition combined_mulntt512 (a : list Z) : res (list Z) := do a <- bitrev_shuffle512 a; mulntt_ct_rev2std a 512 shoup_scaled_ntt512_12289.
(** lines 506-509 *)
Definition mul_then_ntt512_rev (a : list Z) : res (list Z) := do a <- mul_array16 a 512 psi_powers_ntt512_12289; ntt_ct_std2rev a 512 rev_shoup_ntt512_12289.
(** lines 511-513 *)
Definition combined_mulntt512_rev (a : list Z) : res (list Z) := mulntt_ct_std2rev a 512 rev_shoup_scaled_ntt512_12289.
(** lines 515-519 *)
Definition ntt_then_mul512 (a : list Z) : res (list Z) := do a <- bitrev_shuffle512 a; do a <- ntt_ct_rev2std a 512 shoup_ntt512_12289; mul_array16 a 512 psi_powers_ntt512_12289.
(** lines 521-524 *)
Definition combined_nttmul512 (a : list Z) : res (list Z) := do a <- bitrev_shuffle512 a; nttmul_gs_rev2std a 512 rev_shoup_scaled_ntt512_12289.
(** lines 526-530 *)
Definition ntt_then_mul512_rev (a : list Z) : res (list Z) := do a <- ntt_ct_std2rev a 512 rev_shoup_ntt512_12289; do a <- bitrev_shuffle a 512; mul_array16 a 512 psi_powers_ntt512_12289.
(** lines 532-535 *)
Definition combined_nttmul512_rev (a : list Z) : res (list Z) := do a <- nttmul_gs_std2rev a 512 shoup_scaled_ntt512_12289; bitrev_shuffle a 512.
(** lines 538-542 *)
Definition mul_then_ntt1024 (a : list Z) : res (list Z) := do a <- mul_array16 a 1024 psi_powers_ntt1024_12289; do a <- bitrev_shuffle1024 a; ntt_ct_rev2std_v1 a 1024 psi_powers_ntt1024_12289.
(** lines 544-547 *)
Definition combined_mulntt1024 (a : list Z) : res (list Z) := do a <- bitrev_shuffle1024 a; mulntt_ct_rev2std a 1024 shoup_scaled_ntt1024_12289.
(** lines 549-552 *)
Definition mul_then_ntt1024_rev (a : list Z) : res (list Z) := do a <- mul_array16 a 1024 psi_powers_ntt1024_12289; ntt_ct_std2rev a 1024 rev_shoup_ntt1024_12289.
(** lines 554-556 *)
Definition combined_mulntt1024_rev (a : list Z) : res (list Z) := mulntt_ct_std2rev a 1024 rev_shoup_scaled_ntt1024_12289.
(** lines 558-562 *)
Definition ntt_then_mul1024 (a : list Z) : res (list Z) := do a <- bitrev_shuffle1024 a; do a <- ntt_ct_rev2std a 1024 shoup_ntt1024_12289; mul_array16 a 1024 psi_powers_ntt1024_12289.
(** lines 564-567 *)
Definition combined_nttmul1024 (a : list Z) : res (list Z) := do a <- bitrev_shuffle1024 a; nttmul_gs_rev2std a 1024 rev_shoup_scaled_ntt1024_12289.
(** lines 569-573 *)
Definition ntt_then_mul1024_rev (a : list Z) : res (list Z) := do a <- ntt_ct_std2rev a 1024 rev_shoup_ntt1024_12289; do a <- bitrev_shuffle a 1024; mul_array16 a 1024 psi_powers_ntt1024_12289.
(** lines 575-578 *)
Definition combined_nttmul1024_rev (a : list Z) : res (list Z) := do a <- nttmul_gs_std2rev a 1024 shoup_scaled_ntt1024_12289; bitrev_shuffle a 1024.
(** lines 585-587 *)
Definition speed_ntt16_v1 (a : list Z) : res (list Z) := ntt_ct_rev2std_v1 a 16 psi_powers_ntt16_12289.
(** lines 589-591 *)
Definition speed_ntt16_v2 (a : list Z) : res (list Z) := ntt_ct_rev2std a 16 shoup_ntt16_12289.
(** lines 593-595 *)
Definition speed_ntt16_v3 (a : list Z) : res (list Z) := mulntt_ct_rev2std a 16 shoup_ntt16_12289.
(** lines 597-599 *)
Definition speed_ntt16_v4 (a : list Z) : res (list Z) := ntt_ct_std2rev a 16 rev_shoup_ntt16_12289.
(** lines 601-603 *)
Definition speed_ntt16_v5 (a : list Z) : res (list Z) := mulntt_ct_rev2std a 16 rev_shoup_ntt16_12289.
(** lines 605-607 *)
Definition speed_ntt16_v6 (a : list Z) : res (list Z) := ntt_gs_rev2std a 16 rev_shoup_ntt16_12289.
(** lines 609-611 *)
Definition speed_ntt16_v7 (a : list Z) : res (list Z) := nttmul_gs_rev2std a 16 rev_shoup_ntt16_12289.
(** lines 614-616 *)
Definition speed_ntt256_v1 (a : list Z) : res (list Z) := ntt_ct_rev2std_v1 a 256 psi_powers_ntt256_12289.
(** lines 618-620 *)
Definition speed_ntt256_v2 (a : list Z) : res (list Z) := ntt_ct_rev2std a 256 shoup_ntt256_12289.
(** lines 622-624 *)
Definition speed_ntt256_v3 (a : list Z) : res (list Z) := ntt_ct_std2rev a 256 rev_shoup_ntt256_12289.
(** lines 626-628 *)
Definition speed_ntt256_v4 (a : list Z) : res (list Z) := ntt_gs_rev2std a 256 rev_shoup_ntt256_12289.
(** lines 630-632 *)
Definition speed_ntt256_v5 (a : list Z) : res (list Z) := nttmul_gs_rev2std a 256 rev_shoup_ntt256_12289.
(** lines 635-637 *)
Definition speed_ntt512_v1 (a : list Z) : res (list Z) := ntt_ct_rev2std_v1 a 512 psi_powers_ntt512_12289.
(** lines 639-641 *)
Definition speed_ntt512_v2 (a : list Z) : res (list Z) := ntt_ct_rev2std a 512 shoup_ntt512_12289.
(** lines 643-645 *)
Definition speed_ntt512_v3 (a : list Z) : res (list Z) := ntt_ct_std2rev a 512 rev_shoup_ntt512_12289.
(** lines 647-649 *)
Definition speed_ntt512_v4 (a : list Z) : res (list Z) := ntt_gs_rev2std a 512 rev_shoup_ntt512_12289.
(** lines 651-653 *)
Definition speed_ntt512_v5 (a : list Z) : res (list Z) := nttmul_gs_rev2std a 512 rev_shoup_ntt512_12289.
(** lines 656-658 *)
Definition speed_ntt1024_v1 (a : list Z) : res (list Z) := ntt_ct_rev2std_v1 a 1024 psi_powers_ntt1024_12289.
(** lines 660-662 *)
Definition speed_ntt1024_v2 (a : list Z) : res (list Z) := ntt_ct_rev2std a 1024 shoup_ntt1024_12289.
(** lines 664-666 *)
Definition speed_ntt1024_v3 (a : list Z) : res (list Z) := ntt_ct_std2rev a 1024 rev_shoup_ntt1024_12289.
(** lines 668-670 *)
Definition speed_ntt1024_v4 (a : list Z) : res (list Z) := ntt_gs_rev2std a 1024 rev_shoup_ntt1024_12289.
(** lines 672-674 *)
Definition speed_ntt1024_v5 (a : list Z) : res (list Z) := nttmul_gs_rev2std a 1024 rev_shoup_ntt1024_12289.

Section Program.
Variables (clk : Z -> Z) (stk : Z -> Z -> list Z).

(** main, lines 679-687 *)
Definition tests16 : res unit :=
  do _ <- test_simple_polys (stk 0 16) 16 ntt16_v1 6553;
  do _ <- test_simple_polys (stk 1 16) 16 ntt16_v2 6553;
  do _ <- test_simple_polys (stk 2 16) 16 ntt16_v3 6553;
  do _ <- test_simple_polys (stk 3 16) 16 ntt16_v4 6553;
  do _ <- test_simple_polys (stk 4 16) 16 ntt16_v5 6553;
  do _ <- test_simple_polys (stk 5 16) 16 ntt16_v6 6553;
  do _ <- test_simple_polys (stk 6 16) 16 ntt16_v7 6553;
  do _ <- test_simple_polys (stk 7 16) 16 ntt16_v8 6553;
  test_simple_polys (stk 8 16) 16 ntt16_v9 6553.

(** main, lines 690-694 *)
Definition tests256 : res unit :=
  do _ <- test_simple_polys (stk 9 256) 256 ntt256_v1 8595;
  do _ <- test_simple_polys (stk 10 256) 256 ntt256_v2 8595;
  do _ <- test_simple_polys (stk 11 256) 256 ntt256_v3 8595;
  do _ <- test_simple_polys (stk 12 256) 256 ntt256_v4 8595;
  test_simple_polys (stk 13 256) 256 ntt256_v5 8595.

(** main, lines 697-701 *)
Definition tests512 : res unit :=
  do _ <- test_simple_polys (stk 14 512) 512 ntt512_v1 10600;
  do _ <- test_simple_polys (stk 15 512) 512 ntt512_v2 10600;
  do _ <- test_simple_polys (stk 16 512) 512 ntt512_v3 10600;
  do _ <- test_simple_polys (stk 17 512) 512 ntt512_v4 10600;
  test_simple_polys (stk 18 512) 512 ntt512_v5 10600.

(** main, lines 704-708 *)
Definition tests1024 : res unit :=
  do _ <- test_simple_polys (stk 19 1024) 1024 ntt1024_v1 8209;
  do _ <- test_simple_polys (stk 20 1024) 1024 ntt1024_v2 8209;
  do _ <- test_simple_polys (stk 21 1024) 1024 ntt1024_v3 8209;
  do _ <- test_simple_polys (stk 22 1024) 1024 ntt1024_v4 8209;
  test_simple_polys (stk 23 1024) 1024 ntt1024_v5 8209.

(** main, lines 712-715 *)
Definition cross_1 : res unit :=
  do _ <- cross_check (stk 24 16) (stk 25 16) 16 combined_mulntt16 mul_then_ntt16;
  do _ <- cross_check (stk 26 256) (stk 27 256) 256 combined_mulntt256 mul_then_ntt256;
  do _ <- cross_check (stk 28 512) (stk 29 512) 512 combined_mulntt512 mul_then_ntt512;
  cross_check (stk 30 1024) (stk 31 1024) 1024 combined_mulntt1024 mul_then_ntt1024.

(** main, lines 718-721 *)
Definition cross_2 : res unit :=
  do _ <- cross_check (stk 32 16) (stk 33 16) 16 combined_mulntt16_rev mul_then_ntt16_rev;
  do _ <- cross_check (stk 34 256) (stk 35 256) 256 combined_mulntt256_rev mul_then_ntt256_rev;
  do _ <- cross_check (stk 36 512) (stk 37 512) 512 combined_mulntt512_rev mul_then_ntt512_rev;
  cross_check (stk 38 1024) (stk 39 1024) 1024 combined_mulntt1024_rev mul_then_ntt1024_rev.

(** main, lines 724-727 *)
Definition cross_3 : res unit :=
  do _ <- cross_check (stk 40 16) (stk 41 16) 16 combined_nttmul16 ntt_then_mul16;
  do _ <- cross_check (stk 42 256) (stk 43 256) 256 combined_nttmul256 ntt_then_mul256;
  do _ <- cross_check (stk 44 512) (stk 45 512) 512 combined_nttmul512 ntt_then_mul512;
  cross_check (stk 46 1024) (stk 47 1024) 1024 combined_nttmul1024 ntt_then_mul1024.

(** main, lines 730-733 *)
Definition cross_4 : res unit :=
  do _ <- cross_check (stk 48 16) (stk 49 16) 16 combined_nttmul16_rev ntt_then_mul16_rev;
  do _ <- cross_check (stk 50 256) (stk 51 256) 256 combined_nttmul256_rev ntt_then_mul256_rev;
  do _ <- cross_check (stk 52 512) (stk 53 512) 512 combined_nttmul512_rev ntt_then_mul512_rev;
  cross_check (stk 54 1024) (stk 55 1024) 1024 combined_nttmul1024_rev ntt_then_mul1024_rev.

(** main, lines 736-742 *)
Definition speeds16 (t : list Z) (c : Z) : res (list Z * Z) :=
  do '(t, c) <- speed_test clk (stk 56 16) 16 speed_ntt16_v1 t c;
  do '(t, c) <- speed_test clk (stk 57 16) 16 speed_ntt16_v2 t c;
  do '(t, c) <- speed_test clk (stk 58 16) 16 speed_ntt16_v3 t c;
  do '(t, c) <- speed_test clk (stk 59 16) 16 speed_ntt16_v4 t c;
  do '(t, c) <- speed_test clk (stk 60 16) 16 speed_ntt16_v5 t c;
  do '(t, c) <- speed_test clk (stk 61 16) 16 speed_ntt16_v6 t c;
  speed_test clk (stk 62 16) 16 speed_ntt16_v7 t c.

(** main, lines 744-748 *)
Definition speeds256 (t : list Z) (c : Z) : res (list Z * Z) :=
  do '(t, c) <- speed_test clk (stk 63 256) 256 speed_ntt256_v1 t c;
  do '(t, c) <- speed_test clk (stk 64 256) 256 speed_ntt256_v2 t c;
  do '(t, c) <- speed_test clk (stk 65 256) 256 speed_ntt256_v3 t c;
  do '(t, c) <- speed_test clk (stk 66 256) 256 speed_ntt256_v4 t c;
  speed_test clk (stk 67 256) 256 speed_ntt256_v5 t c.

(** main, lines 750-754 *)
Definition speeds512 (t : list Z) (c : Z) : res (list Z * Z) :=
  do '(t, c) <- speed_test clk (stk 68 512) 512 speed_ntt512_v1 t c;
  do '(t, c) <- speed_test clk (stk 69 512) 512 speed_ntt512_v2 t c;
  do '(t, c) <- speed_test clk (stk 70 512) 512 speed_ntt512_v3 t c;
  do '(t, c) <- speed_test clk (stk 71 512) 512 speed_ntt512_v4 t c;
  speed_test clk (stk 72 512) 512 speed_ntt512_v5 t c.

(** main, lines 756-760 *)
Definition speeds1024 (t : list Z) (c : Z) : res (list Z * Z) :=
  do '(t, c) <- speed_test clk (stk 73 1024) 1024 speed_ntt1024_v1 t c;
  do '(t, c) <- speed_test clk (stk 74 1024) 1024 speed_ntt1024_v2 t c;
  do '(t, c) <- speed_test clk (stk 75 1024) 1024 speed_ntt1024_v3 t c;
  do '(t, c) <- speed_test clk (stk 76 1024) 1024 speed_ntt1024_v4 t c;
  speed_test clk (stk 77 1024) 1024 speed_ntt1024_v5 t c.

(** main, lines 763-770 *)
Definition speeds16_mul (t : list Z) (c : Z) : res (list Z * Z) :=
  do '(t, c) <- speed_test clk (stk 78 16) 16 mul_then_ntt16 t c;
  do '(t, c) <- speed_test clk (stk 79 16) 16 combined_mulntt16 t c;
  do '(t, c) <- speed_test clk (stk 80 16) 16 mul_then_ntt16_rev t c;
  do '(t, c) <- speed_test clk (stk 81 16) 16 combined_mulntt16_rev t c;
  do '(t, c) <- speed_test clk (stk 82 16) 16 ntt_then_mul16 t c;
  do '(t, c) <- speed_test clk (stk 83 16) 16 combined_nttmul16 t c;
  do '(t, c) <- speed_test clk (stk 84 16) 16 ntt_then_mul16_rev t c;
  speed_test clk (stk 85 16) 16 combined_nttmul16_rev t c.

(** main, lines 772-779 *)
Definition speeds256_mul (t : list Z) (c : Z) : res (list Z * Z) :=
  do '(t, c) <- speed_test clk (stk 86 256) 256 mul_then_ntt256 t c;
  do '(t, c) <- speed_test clk (stk 87 256) 256 combined_mulntt256 t c;
  do '(t, c) <- speed_test clk (stk 88 256) 256 mul_then_ntt256_rev t c;
  do '(t, c) <- speed_test clk (stk 89 256) 256 combined_mulntt256_rev t c;
  do '(t, c) <- speed_test clk (stk 90 256) 256 ntt_then_mul256 t c;
  do '(t, c) <- speed_test clk (stk 91 256) 256 combined_nttmul256 t c;
  do '(t, c) <- speed_test clk (stk 92 256) 256 ntt_then_mul256_rev t c;
  speed_test clk (stk 93 256) 256 combined_nttmul256_rev t c.

(** main, lines 781-788 *)
Definition speeds512_mul (t : list Z) (c : Z) : res (list Z * Z) :=
  do '(t, c) <- speed_test clk (stk 94 512) 512 mul_then_ntt512 t c;
  do '(t, c) <- speed_test clk (stk 95 512) 512 combined_mulntt512 t c;
  do '(t, c) <- speed_test clk (stk 96 512) 512 mul_then_ntt512_rev t c;
  do '(t, c) <- speed_test clk (stk 97 512) 512 combined_mulntt512_rev t c;
  do '(t, c) <- speed_test clk (stk 98 512) 512 ntt_then_mul512 t c;
  do '(t, c) <- speed_test clk (stk 99 512) 512 combined_nttmul512 t c;
  do '(t, c) <- speed_test clk (stk 100 512) 512 ntt_then_mul512_rev t c;
  speed_test clk (stk 101 512) 512 combined_nttmul512_rev t c.

(** main, lines 790-797 *)
Definition speeds1024_mul (t : list Z) (c : Z) : res (list Z * Z) :=
  do '(t, c) <- speed_test clk (stk 102 1024) 1024 mul_then_ntt1024 t c;
  do '(t, c) <- speed_test clk (stk 103 1024) 1024 combined_mulntt1024 t c;
  do '(t, c) <- speed_test clk (stk 104 1024) 1024 mul_then_ntt1024_rev t c;
  do '(t, c) <- speed_test clk (stk 105 1024) 1024 combined_mulntt1024_rev t c;
  do '(t, c) <- speed_test clk (stk 106 1024) 1024 ntt_then_mul1024 t c;
  do '(t, c) <- speed_test clk (stk 107 1024) 1024 combined_nttmul1024 t c;
  do '(t, c) <- speed_test clk (stk 108 1024) 1024 ntt_then_mul1024_rev t c;
  speed_test clk (stk 109 1024) 1024 combined_nttmul1024_rev t c.

(** main, lines 677-801: the value it returns.  The array t is all 0 at first *)
Definition main : res Z :=
  do _ <- tests16;
  do _ <- tests256;
  do _ <- tests512;
  do _ <- tests1024;
  do _ <- cross_1;
  do _ <- cross_2;
  do _ <- cross_3;
  do _ <- cross_4;
  do '(t, c) <- speeds16 (repeat 0 (Z.to_nat NTESTS)) 0;
  do '(t, c) <- speeds256 t c;
  do '(t, c) <- speeds512 t c;
  do '(t, c) <- speeds1024 t c;
  do '(t, c) <- speeds16_mul t c;
  do '(t, c) <- speeds256_mul t c;
  do '(t, c) <- speeds512_mul t c;
  do '(t, c) <- speeds1024_mul t c;
  Ok 0.
End Program.
