(** src/test_ntt_avx.c (make target test_ntt_avx).

    exit(1) is [Err Exited].  As in ModelTestAvx, the values returned by random() and by
    cpucycles() are parameters, [rnd i] and [clk i] for call number [i], and printing
    (print_array, lines 59-77) is not modelled.  The three local arrays of cross_check are
    not initialised: [stk n r i] is what array number [i] contains at first, in a call for
    size [n] after [r] calls of random().  The code between #if 0 and #endif is left out. *)

From Coq Require Import ZArith List Bool.
From Verif Require Import CSem ModelRed ModelAvx ModelTests ModelTestAvx ModelTestTables.
Import ListNotations.
Open Scope Z_scope.

(** cpucycles (17-22), average_time (29-38), median_time (41-53), equal_arrays (105-112),
    random_array16 (142-148) and copy_array (153-159) have the same text as in test_avx.c,
    and so has random_coeff (118-127), with [2 * n] computed in 32 bits. *)
Section Program.
Variables (rnd clk : Z -> Z) (stk : Z -> Z -> Z -> list Z).

(** random_array, lines 133-139 *)
Definition random_array (a : list Z) (n r : Z) : res (list Z * Z) :=
  loop n (fun i '(a, r) =>
    do '(x, r) <- random_coeff rnd (mul32 2) 200000 r;
    do a <- wr a i x;
    Ok (a, r)) (a, r).

(** cross_check, lines 167-190: the number of calls of random() at the end *)
Definition cross_check (n : Z) (f g : list Z -> res (list Z)) (r : Z) : res Z :=
  do '(_, _, _, r) <- loop 100000 (fun _ '(a, b, c, r) =>
    do '(a, r) <- random_array a n r;
    do b <- copy_array b a n;
    do c <- copy_array c a n;
    do a <- f a;
    do b <- g b;
    do ok <- equal_arrays a b n;
    do _ <- expect ok;
    Ok (a, b, c, r)) (stk n r 0, stk n r 1, stk n r 2, r);
  Ok r.

(** The globals t, a, p and the numbers of calls of random() and of cpucycles() *)
Definition globals : Type := list Z * list Z * list Z * Z * Z.

(** A call of cross_check; it does not use the globals *)
Definition compare (n : Z) (f g : list Z -> res (list Z)) (s : globals) : res globals :=
  let '(t, a, p, r, c) := s in
  do r <- cross_check n f g r;
  Ok (t, a, p, r, c).

(** speed_test2, lines 225-245; [report] is lines 236-243 *)
Definition speed_test2 (n : Z) (f : list Z -> Z -> list Z -> res (list Z)) (s : globals) : res globals :=
  let '(t, a, p, r, c) := s in
  do '(a, r) <- random_array a n r;
  do '(p, r) <- random_array16 rnd (mul32 2) p n r;
  do '(t, a, c) <- loop NTESTS (fun i '(t, a, c) =>
    do t <- wr t i (clk c);
    do a <- f a n p;
    Ok (t, a, c + 1)) (t, a, c);
  do '(t, c) <- report clk t c;
  Ok (t, a, p, r, c).

(** ntt_ct_rev2std, lines 250-296 *)
Definition ntt_ct_rev2std16_asm (a : list Z) : res (list Z) := ntt_red_ct_rev2std_asm a 16 shoup_sred_ntt16_12289.
Definition ntt_ct_rev2std16_base (a : list Z) : res (list Z) := ntt_red_ct_rev2std a 16 shoup_sred_ntt16_12289.
Definition ntt_ct_rev2std128_asm (a : list Z) : res (list Z) := ntt_red_ct_rev2std_asm a 128 shoup_sred_ntt128_12289.
Definition ntt_ct_rev2std128_base (a : list Z) : res (list Z) := ntt_red_ct_rev2std a 128 shoup_sred_ntt128_12289.
Definition ntt_ct_rev2std256_asm (a : list Z) : res (list Z) := ntt_red_ct_rev2std_asm a 256 shoup_sred_ntt256_12289.
Definition ntt_ct_rev2std256_base (a : list Z) : res (list Z) := ntt_red_ct_rev2std a 256 shoup_sred_ntt256_12289.
Definition ntt_ct_rev2std512_asm (a : list Z) : res (list Z) := ntt_red_ct_rev2std_asm a 512 shoup_sred_ntt512_12289.
Definition ntt_ct_rev2std512_base (a : list Z) : res (list Z) := ntt_red_ct_rev2std a 512 shoup_sred_ntt512_12289.
Definition ntt_ct_rev2std1024_asm (a : list Z) : res (list Z) := ntt_red_ct_rev2std_asm a 1024 shoup_sred_ntt1024_12289.
Definition ntt_ct_rev2std1024_base (a : list Z) : res (list Z) := ntt_red_ct_rev2std a 1024 shoup_sred_ntt1024_12289.
Definition ntt_ct_rev2std2048_asm (a : list Z) : res (list Z) := ntt_red_ct_rev2std_asm a 2048 shoup_sred_ntt2048_12289.
Definition ntt_ct_rev2std2048_base (a : list Z) : res (list Z) := ntt_red_ct_rev2std a 2048 shoup_sred_ntt2048_12289.

(** mulntt_ct_rev2std, lines 301-347 *)
Definition mulntt_ct_rev2std16_asm (a : list Z) : res (list Z) := mulntt_red_ct_rev2std_asm a 16 shoup_sred_ntt16_12289.
Definition mulntt_ct_rev2std16_base (a : list Z) : res (list Z) := mulntt_red_ct_rev2std a 16 shoup_sred_ntt16_12289.
Definition mulntt_ct_rev2std128_asm (a : list Z) : res (list Z) := mulntt_red_ct_rev2std_asm a 128 shoup_sred_ntt128_12289.
Definition mulntt_ct_rev2std128_base (a : list Z) : res (list Z) := mulntt_red_ct_rev2std a 128 shoup_sred_ntt128_12289.
Definition mulntt_ct_rev2std256_asm (a : list Z) : res (list Z) := mulntt_red_ct_rev2std_asm a 256 shoup_sred_ntt256_12289.
Definition mulntt_ct_rev2std256_base (a : list Z) : res (list Z) := mulntt_red_ct_rev2std a 256 shoup_sred_ntt256_12289.
Definition mulntt_ct_rev2std512_asm (a : list Z) : res (list Z) := mulntt_red_ct_rev2std_asm a 512 shoup_sred_ntt512_12289.
Definition mulntt_ct_rev2std512_base (a : list Z) : res (list Z) := mulntt_red_ct_rev2std a 512 shoup_sred_ntt512_12289.
Definition mulntt_ct_rev2std1024_asm (a : list Z) : res (list Z) := mulntt_red_ct_rev2std_asm a 1024 shoup_sred_ntt1024_12289.
Definition mulntt_ct_rev2std1024_base (a : list Z) : res (list Z) := mulntt_red_ct_rev2std a 1024 shoup_sred_ntt1024_12289.
Definition mulntt_ct_rev2std2048_asm (a : list Z) : res (list Z) := mulntt_red_ct_rev2std_asm a 2048 shoup_sred_ntt2048_12289.
Definition mulntt_ct_rev2std2048_base (a : list Z) : res (list Z) := mulntt_red_ct_rev2std a 2048 shoup_sred_ntt2048_12289.

(** ntt_ct_std2rev, lines 353-399 *)
Definition ntt_ct_std2rev16_asm (a : list Z) : res (list Z) := ntt_red_ct_std2rev_asm a 16 rev_shoup_sred_ntt16_12289.
Definition ntt_ct_std2rev16_base (a : list Z) : res (list Z) := ntt_red_ct_std2rev a 16 rev_shoup_sred_ntt16_12289.
Definition ntt_ct_std2rev128_asm (a : list Z) : res (list Z) := ntt_red_ct_std2rev_asm a 128 rev_shoup_sred_ntt128_12289.
Definition ntt_ct_std2rev128_base (a : list Z) : res (list Z) := ntt_red_ct_std2rev a 128 rev_shoup_sred_ntt128_12289.
Definition ntt_ct_std2rev256_asm (a : list Z) : res (list Z) := ntt_red_ct_std2rev_asm a 256 rev_shoup_sred_ntt256_12289.
Definition ntt_ct_std2rev256_base (a : list Z) : res (list Z) := ntt_red_ct_std2rev a 256 rev_shoup_sred_ntt256_12289.
Definition ntt_ct_std2rev512_asm (a : list Z) : res (list Z) := ntt_red_ct_std2rev_asm a 512 rev_shoup_sred_ntt512_12289.
Definition ntt_ct_std2rev512_base (a : list Z) : res (list Z) := ntt_red_ct_std2rev a 512 rev_shoup_sred_ntt512_12289.
Definition ntt_ct_std2rev1024_asm (a : list Z) : res (list Z) := ntt_red_ct_std2rev_asm a 1024 rev_shoup_sred_ntt1024_12289.
Definition ntt_ct_std2rev1024_base (a : list Z) : res (list Z) := ntt_red_ct_std2rev a 1024 rev_shoup_sred_ntt1024_12289.
Definition ntt_ct_std2rev2048_asm (a : list Z) : res (list Z) := ntt_red_ct_std2rev_asm a 2048 rev_shoup_sred_ntt2048_12289.
Definition ntt_ct_std2rev2048_base (a : list Z) : res (list Z) := ntt_red_ct_std2rev a 2048 rev_shoup_sred_ntt2048_12289.

(** mulntt_ct_std2rev, lines 405-451 *)
Definition mulntt_ct_std2rev16_asm (a : list Z) : res (list Z) := mulntt_red_ct_std2rev_asm a 16 rev_shoup_sred_scaled_ntt16_12289.
Definition mulntt_ct_std2rev16_base (a : list Z) : res (list Z) := mulntt_red_ct_std2rev a 16 rev_shoup_sred_scaled_ntt16_12289.
Definition mulntt_ct_std2rev128_asm (a : list Z) : res (list Z) := mulntt_red_ct_std2rev_asm a 128 rev_shoup_sred_scaled_ntt128_12289.
Definition mulntt_ct_std2rev128_base (a : list Z) : res (list Z) := mulntt_red_ct_std2rev a 128 rev_shoup_sred_scaled_ntt128_12289.
Definition mulntt_ct_std2rev256_asm (a : list Z) : res (list Z) := mulntt_red_ct_std2rev_asm a 256 rev_shoup_sred_scaled_ntt256_12289.
Definition mulntt_ct_std2rev256_base (a : list Z) : res (list Z) := mulntt_red_ct_std2rev a 256 rev_shoup_sred_scaled_ntt256_12289.
Definition mulntt_ct_std2rev512_asm (a : list Z) : res (list Z) := mulntt_red_ct_std2rev_asm a 512 rev_shoup_sred_scaled_ntt512_12289.
Definition mulntt_ct_std2rev512_base (a : list Z) : res (list Z) := mulntt_red_ct_std2rev a 512 rev_shoup_sred_scaled_ntt512_12289.
Definition mulntt_ct_std2rev1024_asm (a : list Z) : res (list Z) := mulntt_red_ct_std2rev_asm a 1024 rev_shoup_sred_scaled_ntt1024_12289.
Definition mulntt_ct_std2rev1024_base (a : list Z) : res (list Z) := mulntt_red_ct_std2rev a 1024 rev_shoup_sred_scaled_ntt1024_12289.
Definition mulntt_ct_std2rev2048_asm (a : list Z) : res (list Z) := mulntt_red_ct_std2rev_asm a 2048 rev_shoup_sred_scaled_ntt2048_12289.
Definition mulntt_ct_std2rev2048_base (a : list Z) : res (list Z) := mulntt_red_ct_std2rev a 2048 rev_shoup_sred_scaled_ntt2048_12289.

(** ntt_gs_rev2std, lines 458-504 *)
Definition ntt_gs_rev2std16_asm (a : list Z) : res (list Z) := ntt_red_gs_rev2std_asm a 16 rev_shoup_sred_ntt16_12289.
Definition ntt_gs_rev2std16_base (a : list Z) : res (list Z) := ntt_red_gs_rev2std a 16 rev_shoup_sred_ntt16_12289.
Definition ntt_gs_rev2std128_asm (a : list Z) : res (list Z) := ntt_red_gs_rev2std_asm a 128 rev_shoup_sred_ntt128_12289.
Definition ntt_gs_rev2std128_base (a : list Z) : res (list Z) := ntt_red_gs_rev2std a 128 rev_shoup_sred_ntt128_12289.
Definition ntt_gs_rev2std256_asm (a : list Z) : res (list Z) := ntt_red_gs_rev2std_asm a 256 rev_shoup_sred_ntt256_12289.
Definition ntt_gs_rev2std256_base (a : list Z) : res (list Z) := ntt_red_gs_rev2std a 256 rev_shoup_sred_ntt256_12289.
Definition ntt_gs_rev2std512_asm (a : list Z) : res (list Z) := ntt_red_gs_rev2std_asm a 512 rev_shoup_sred_ntt512_12289.
Definition ntt_gs_rev2std512_base (a : list Z) : res (list Z) := ntt_red_gs_rev2std a 512 rev_shoup_sred_ntt512_12289.
Definition ntt_gs_rev2std1024_asm (a : list Z) : res (list Z) := ntt_red_gs_rev2std_asm a 1024 rev_shoup_sred_ntt1024_12289.
Definition ntt_gs_rev2std1024_base (a : list Z) : res (list Z) := ntt_red_gs_rev2std a 1024 rev_shoup_sred_ntt1024_12289.
Definition ntt_gs_rev2std2048_asm (a : list Z) : res (list Z) := ntt_red_gs_rev2std_asm a 2048 rev_shoup_sred_ntt2048_12289.
Definition ntt_gs_rev2std2048_base (a : list Z) : res (list Z) := ntt_red_gs_rev2std a 2048 rev_shoup_sred_ntt2048_12289.

(** nttmul_gs_rev2std, lines 511-557 *)
Definition nttmul_gs_rev2std16_asm (a : list Z) : res (list Z) := nttmul_red_gs_rev2std_asm a 16 rev_shoup_sred_scaled_ntt16_12289.
Definition nttmul_gs_rev2std16_base (a : list Z) : res (list Z) := nttmul_red_gs_rev2std a 16 rev_shoup_sred_scaled_ntt16_12289.
Definition nttmul_gs_rev2std128_asm (a : list Z) : res (list Z) := nttmul_red_gs_rev2std_asm a 128 rev_shoup_sred_scaled_ntt128_12289.
Definition nttmul_gs_rev2std128_base (a : list Z) : res (list Z) := nttmul_red_gs_rev2std a 128 rev_shoup_sred_scaled_ntt128_12289.
Definition nttmul_gs_rev2std256_asm (a : list Z) : res (list Z) := nttmul_red_gs_rev2std_asm a 256 rev_shoup_sred_scaled_ntt256_12289.
Definition nttmul_gs_rev2std256_base (a : list Z) : res (list Z) := nttmul_red_gs_rev2std a 256 rev_shoup_sred_scaled_ntt256_12289.
Definition nttmul_gs_rev2std512_asm (a : list Z) : res (list Z) := nttmul_red_gs_rev2std_asm a 512 rev_shoup_sred_scaled_ntt512_12289.
Definition nttmul_gs_rev2std512_base (a : list Z) : res (list Z) := nttmul_red_gs_rev2std a 512 rev_shoup_sred_scaled_ntt512_12289.
Definition nttmul_gs_rev2std1024_asm (a : list Z) : res (list Z) := nttmul_red_gs_rev2std_asm a 1024 rev_shoup_sred_scaled_ntt1024_12289.
Definition nttmul_gs_rev2std1024_base (a : list Z) : res (list Z) := nttmul_red_gs_rev2std a 1024 rev_shoup_sred_scaled_ntt1024_12289.
Definition nttmul_gs_rev2std2048_asm (a : list Z) : res (list Z) := nttmul_red_gs_rev2std_asm a 2048 rev_shoup_sred_scaled_ntt2048_12289.
Definition nttmul_gs_rev2std2048_base (a : list Z) : res (list Z) := nttmul_red_gs_rev2std a 2048 rev_shoup_sred_scaled_ntt2048_12289.

(** ntt_gs_std2rev, lines 564-610 *)
Definition ntt_gs_std2rev16_asm (a : list Z) : res (list Z) := ntt_red_gs_std2rev_asm a 16 shoup_sred_ntt16_12289.
Definition ntt_gs_std2rev16_base (a : list Z) : res (list Z) := ntt_red_gs_std2rev a 16 shoup_sred_ntt16_12289.
Definition ntt_gs_std2rev128_asm (a : list Z) : res (list Z) := ntt_red_gs_std2rev_asm a 128 shoup_sred_ntt128_12289.
Definition ntt_gs_std2rev128_base (a : list Z) : res (list Z) := ntt_red_gs_std2rev a 128 shoup_sred_ntt128_12289.
Definition ntt_gs_std2rev256_asm (a : list Z) : res (list Z) := ntt_red_gs_std2rev_asm a 256 shoup_sred_ntt256_12289.
Definition ntt_gs_std2rev256_base (a : list Z) : res (list Z) := ntt_red_gs_std2rev a 256 shoup_sred_ntt256_12289.
Definition ntt_gs_std2rev512_asm (a : list Z) : res (list Z) := ntt_red_gs_std2rev_asm a 512 shoup_sred_ntt512_12289.
Definition ntt_gs_std2rev512_base (a : list Z) : res (list Z) := ntt_red_gs_std2rev a 512 shoup_sred_ntt512_12289.
Definition ntt_gs_std2rev1024_asm (a : list Z) : res (list Z) := ntt_red_gs_std2rev_asm a 1024 shoup_sred_ntt1024_12289.
Definition ntt_gs_std2rev1024_base (a : list Z) : res (list Z) := ntt_red_gs_std2rev a 1024 shoup_sred_ntt1024_12289.
Definition ntt_gs_std2rev2048_asm (a : list Z) : res (list Z) := ntt_red_gs_std2rev_asm a 2048 shoup_sred_ntt2048_12289.
Definition ntt_gs_std2rev2048_base (a : list Z) : res (list Z) := ntt_red_gs_std2rev a 2048 shoup_sred_ntt2048_12289.

(** nttmul_gs_std2rev, lines 616-662 *)
Definition nttmul_gs_std2rev16_asm (a : list Z) : res (list Z) := nttmul_red_gs_std2rev_asm a 16 shoup_sred_scaled_ntt16_12289.
Definition nttmul_gs_std2rev16_base (a : list Z) : res (list Z) := nttmul_red_gs_std2rev a 16 shoup_sred_scaled_ntt16_12289.
Definition nttmul_gs_std2rev128_asm (a : list Z) : res (list Z) := nttmul_red_gs_std2rev_asm a 128 shoup_sred_scaled_ntt128_12289.
Definition nttmul_gs_std2rev128_base (a : list Z) : res (list Z) := nttmul_red_gs_std2rev a 128 shoup_sred_scaled_ntt128_12289.
Definition nttmul_gs_std2rev256_asm (a : list Z) : res (list Z) := nttmul_red_gs_std2rev_asm a 256 shoup_sred_scaled_ntt256_12289.
Definition nttmul_gs_std2rev256_base (a : list Z) : res (list Z) := nttmul_red_gs_std2rev a 256 shoup_sred_scaled_ntt256_12289.
Definition nttmul_gs_std2rev512_asm (a : list Z) : res (list Z) := nttmul_red_gs_std2rev_asm a 512 shoup_sred_scaled_ntt512_12289.
Definition nttmul_gs_std2rev512_base (a : list Z) : res (list Z) := nttmul_red_gs_std2rev a 512 shoup_sred_scaled_ntt512_12289.
Definition nttmul_gs_std2rev1024_asm (a : list Z) : res (list Z) := nttmul_red_gs_std2rev_asm a 1024 shoup_sred_scaled_ntt1024_12289.
Definition nttmul_gs_std2rev1024_base (a : list Z) : res (list Z) := nttmul_red_gs_std2rev a 1024 shoup_sred_scaled_ntt1024_12289.
Definition nttmul_gs_std2rev2048_asm (a : list Z) : res (list Z) := nttmul_red_gs_std2rev_asm a 2048 shoup_sred_scaled_ntt2048_12289.
Definition nttmul_gs_std2rev2048_base (a : list Z) : res (list Z) := nttmul_red_gs_std2rev a 2048 shoup_sred_scaled_ntt2048_12289.

(** tests16, lines 788-823 *)
Definition tests16 (s : globals) : res globals :=
  do s <- compare 16 ntt_ct_rev2std16_asm ntt_ct_rev2std16_base s;
  do s <- speed_test2 16 ntt_red_ct_rev2std s;
  do s <- speed_test2 16 ntt_red_ct_rev2std_asm s;
  do s <- compare 16 mulntt_ct_rev2std16_asm mulntt_ct_rev2std16_base s;
  do s <- speed_test2 16 mulntt_red_ct_rev2std s;
  do s <- speed_test2 16 mulntt_red_ct_rev2std_asm s;
  do s <- compare 16 ntt_ct_std2rev16_asm ntt_ct_std2rev16_base s;
  do s <- speed_test2 16 ntt_red_ct_std2rev s;
  do s <- speed_test2 16 ntt_red_ct_std2rev_asm s;
  do s <- compare 16 mulntt_ct_std2rev16_asm mulntt_ct_std2rev16_base s;
  do s <- speed_test2 16 mulntt_red_ct_std2rev s;
  do s <- speed_test2 16 mulntt_red_ct_std2rev_asm s;
  do s <- compare 16 ntt_gs_rev2std16_asm ntt_gs_rev2std16_base s;
  do s <- speed_test2 16 ntt_red_gs_rev2std s;
  do s <- speed_test2 16 ntt_red_gs_rev2std_asm s;
  do s <- compare 16 nttmul_gs_rev2std16_asm nttmul_gs_rev2std16_base s;
  do s <- speed_test2 16 nttmul_red_gs_rev2std s;
  do s <- speed_test2 16 nttmul_red_gs_rev2std_asm s;
  do s <- compare 16 ntt_gs_std2rev16_asm ntt_gs_std2rev16_base s;
  do s <- speed_test2 16 ntt_red_gs_std2rev s;
  do s <- speed_test2 16 ntt_red_gs_std2rev_asm s;
  do s <- compare 16 nttmul_gs_std2rev16_asm nttmul_gs_std2rev16_base s;
  do s <- speed_test2 16 nttmul_red_gs_std2rev s;
  speed_test2 16 nttmul_red_gs_std2rev_asm s.

(** tests128, lines 825-860 *)
Definition tests128 (s : globals) : res globals :=
  do s <- compare 128 ntt_ct_rev2std128_asm ntt_ct_rev2std128_base s;
  do s <- speed_test2 128 ntt_red_ct_rev2std s;
  do s <- speed_test2 128 ntt_red_ct_rev2std_asm s;
  do s <- compare 128 mulntt_ct_rev2std128_asm mulntt_ct_rev2std128_base s;
  do s <- speed_test2 128 mulntt_red_ct_rev2std s;
  do s <- speed_test2 128 mulntt_red_ct_rev2std_asm s;
  do s <- compare 128 ntt_ct_std2rev128_asm ntt_ct_std2rev128_base s;
  do s <- speed_test2 128 ntt_red_ct_std2rev s;
  do s <- speed_test2 128 ntt_red_ct_std2rev_asm s;
  do s <- compare 128 mulntt_ct_std2rev128_asm mulntt_ct_std2rev128_base s;
  do s <- speed_test2 128 mulntt_red_ct_std2rev s;
  do s <- speed_test2 128 mulntt_red_ct_std2rev_asm s;
  do s <- compare 128 ntt_gs_rev2std128_asm ntt_gs_rev2std128_base s;
  do s <- speed_test2 128 ntt_red_gs_rev2std s;
  do s <- speed_test2 128 ntt_red_gs_rev2std_asm s;
  do s <- compare 128 nttmul_gs_rev2std128_asm nttmul_gs_rev2std128_base s;
  do s <- speed_test2 128 nttmul_red_gs_rev2std s;
  do s <- speed_test2 128 nttmul_red_gs_rev2std_asm s;
  do s <- compare 128 ntt_gs_std2rev128_asm ntt_gs_std2rev128_base s;
  do s <- speed_test2 128 ntt_red_gs_std2rev s;
  do s <- speed_test2 128 ntt_red_gs_std2rev_asm s;
  do s <- compare 128 nttmul_gs_std2rev128_asm nttmul_gs_std2rev128_base s;
  do s <- speed_test2 128 nttmul_red_gs_std2rev s;
  speed_test2 128 nttmul_red_gs_std2rev_asm s.

(** tests256, lines 862-897 *)
Definition tests256 (s : globals) : res globals :=
  do s <- compare 256 ntt_ct_rev2std256_asm ntt_ct_rev2std256_base s;
  do s <- speed_test2 256 ntt_red_ct_rev2std s;
  do s <- speed_test2 256 ntt_red_ct_rev2std_asm s;
  do s <- compare 256 mulntt_ct_rev2std256_asm mulntt_ct_rev2std256_base s;
  do s <- speed_test2 256 mulntt_red_ct_rev2std s;
  do s <- speed_test2 256 mulntt_red_ct_rev2std_asm s;
  do s <- compare 256 ntt_ct_std2rev256_asm ntt_ct_std2rev256_base s;
  do s <- speed_test2 256 ntt_red_ct_std2rev s;
  do s <- speed_test2 256 ntt_red_ct_std2rev_asm s;
  do s <- compare 256 mulntt_ct_std2rev256_asm mulntt_ct_std2rev256_base s;
  do s <- speed_test2 256 mulntt_red_ct_std2rev s;
  do s <- speed_test2 256 mulntt_red_ct_std2rev_asm s;
  do s <- compare 256 ntt_gs_rev2std256_asm ntt_gs_rev2std256_base s;
  do s <- speed_test2 256 ntt_red_gs_rev2std s;
  do s <- speed_test2 256 ntt_red_gs_rev2std_asm s;
  do s <- compare 256 nttmul_gs_rev2std256_asm nttmul_gs_rev2std256_base s;
  do s <- speed_test2 256 nttmul_red_gs_rev2std s;
  do s <- speed_test2 256 nttmul_red_gs_rev2std_asm s;
  do s <- compare 256 ntt_gs_std2rev256_asm ntt_gs_std2rev256_base s;
  do s <- speed_test2 256 ntt_red_gs_std2rev s;
  do s <- speed_test2 256 ntt_red_gs_std2rev_asm s;
  do s <- compare 256 nttmul_gs_std2rev256_asm nttmul_gs_std2rev256_base s;
  do s <- speed_test2 256 nttmul_red_gs_std2rev s;
  speed_test2 256 nttmul_red_gs_std2rev_asm s.

(** tests512, lines 899-934 *)
Definition tests512 (s : globals) : res globals :=
  do s <- compare 512 ntt_ct_rev2std512_asm ntt_ct_rev2std512_base s;
  do s <- speed_test2 512 ntt_red_ct_rev2std s;
  do s <- speed_test2 512 ntt_red_ct_rev2std_asm s;
  do s <- compare 512 mulntt_ct_rev2std512_asm mulntt_ct_rev2std512_base s;
  do s <- speed_test2 512 mulntt_red_ct_rev2std s;
  do s <- speed_test2 512 mulntt_red_ct_rev2std_asm s;
  do s <- compare 512 ntt_ct_std2rev512_asm ntt_ct_std2rev512_base s;
  do s <- speed_test2 512 ntt_red_ct_std2rev s;
  do s <- speed_test2 512 ntt_red_ct_std2rev_asm s;
  do s <- compare 512 mulntt_ct_std2rev512_asm mulntt_ct_std2rev512_base s;
  do s <- speed_test2 512 mulntt_red_ct_std2rev s;
  do s <- speed_test2 512 mulntt_red_ct_std2rev_asm s;
  do s <- compare 512 ntt_gs_rev2std512_asm ntt_gs_rev2std512_base s;
  do s <- speed_test2 512 ntt_red_gs_rev2std s;
  do s <- speed_test2 512 ntt_red_gs_rev2std_asm s;
  do s <- compare 512 nttmul_gs_rev2std512_asm nttmul_gs_rev2std512_base s;
  do s <- speed_test2 512 nttmul_red_gs_rev2std s;
  do s <- speed_test2 512 nttmul_red_gs_rev2std_asm s;
  do s <- compare 512 ntt_gs_std2rev512_asm ntt_gs_std2rev512_base s;
  do s <- speed_test2 512 ntt_red_gs_std2rev s;
  do s <- speed_test2 512 ntt_red_gs_std2rev_asm s;
  do s <- compare 512 nttmul_gs_std2rev512_asm nttmul_gs_std2rev512_base s;
  do s <- speed_test2 512 nttmul_red_gs_std2rev s;
  speed_test2 512 nttmul_red_gs_std2rev_asm s.

(** tests1024, lines 936-971 *)
Definition tests1024 (s : globals) : res globals :=
  do s <- compare 1024 ntt_ct_rev2std1024_asm ntt_ct_rev2std1024_base s;
  do s <- speed_test2 1024 ntt_red_ct_rev2std s;
  do s <- speed_test2 1024 ntt_red_ct_rev2std_asm s;
  do s <- compare 1024 mulntt_ct_rev2std1024_asm mulntt_ct_rev2std1024_base s;
  do s <- speed_test2 1024 mulntt_red_ct_rev2std s;
  do s <- speed_test2 1024 mulntt_red_ct_rev2std_asm s;
  do s <- compare 1024 ntt_ct_std2rev1024_asm ntt_ct_std2rev1024_base s;
  do s <- speed_test2 1024 ntt_red_ct_std2rev s;
  do s <- speed_test2 1024 ntt_red_ct_std2rev_asm s;
  do s <- compare 1024 mulntt_ct_std2rev1024_asm mulntt_ct_std2rev1024_base s;
  do s <- speed_test2 1024 mulntt_red_ct_std2rev s;
  do s <- speed_test2 1024 mulntt_red_ct_std2rev_asm s;
  do s <- compare 1024 ntt_gs_rev2std1024_asm ntt_gs_rev2std1024_base s;
  do s <- speed_test2 1024 ntt_red_gs_rev2std s;
  do s <- speed_test2 1024 ntt_red_gs_rev2std_asm s;
  do s <- compare 1024 nttmul_gs_rev2std1024_asm nttmul_gs_rev2std1024_base s;
  do s <- speed_test2 1024 nttmul_red_gs_rev2std s;
  do s <- speed_test2 1024 nttmul_red_gs_rev2std_asm s;
  do s <- compare 1024 ntt_gs_std2rev1024_asm ntt_gs_std2rev1024_base s;
  do s <- speed_test2 1024 ntt_red_gs_std2rev s;
  do s <- speed_test2 1024 ntt_red_gs_std2rev_asm s;
  do s <- compare 1024 nttmul_gs_std2rev1024_asm nttmul_gs_std2rev1024_base s;
  do s <- speed_test2 1024 nttmul_red_gs_std2rev s;
  speed_test2 1024 nttmul_red_gs_std2rev_asm s.

(** tests2048, lines 973-1008 *)
Definition tests2048 (s : globals) : res globals :=
  do s <- compare 2048 ntt_ct_rev2std2048_asm ntt_ct_rev2std2048_base s;
  do s <- speed_test2 2048 ntt_red_ct_rev2std s;
  do s <- speed_test2 2048 ntt_red_ct_rev2std_asm s;
  do s <- compare 2048 mulntt_ct_rev2std2048_asm mulntt_ct_rev2std2048_base s;
  do s <- speed_test2 2048 mulntt_red_ct_rev2std s;
  do s <- speed_test2 2048 mulntt_red_ct_rev2std_asm s;
  do s <- compare 2048 ntt_ct_std2rev2048_asm ntt_ct_std2rev2048_base s;
  do s <- speed_test2 2048 ntt_red_ct_std2rev s;
  do s <- speed_test2 2048 ntt_red_ct_std2rev_asm s;
  do s <- compare 2048 mulntt_ct_std2rev2048_asm mulntt_ct_std2rev2048_base s;
  do s <- speed_test2 2048 mulntt_red_ct_std2rev s;
  do s <- speed_test2 2048 mulntt_red_ct_std2rev_asm s;
  do s <- compare 2048 ntt_gs_rev2std2048_asm ntt_gs_rev2std2048_base s;
  do s <- speed_test2 2048 ntt_red_gs_rev2std s;
  do s <- speed_test2 2048 ntt_red_gs_rev2std_asm s;
  do s <- compare 2048 nttmul_gs_rev2std2048_asm nttmul_gs_rev2std2048_base s;
  do s <- speed_test2 2048 nttmul_red_gs_rev2std s;
  do s <- speed_test2 2048 nttmul_red_gs_rev2std_asm s;
  do s <- compare 2048 ntt_gs_std2rev2048_asm ntt_gs_std2rev2048_base s;
  do s <- speed_test2 2048 ntt_red_gs_std2rev s;
  do s <- speed_test2 2048 ntt_red_gs_std2rev_asm s;
  do s <- compare 2048 nttmul_gs_std2rev2048_asm nttmul_gs_std2rev2048_base s;
  do s <- speed_test2 2048 nttmul_red_gs_std2rev s;
  speed_test2 2048 nttmul_red_gs_std2rev_asm s.

(** run_tests, lines 1011-1018; the globals (lines 26 and 198-199) are 0 at first *)
Definition run_tests : res globals :=
  do s <- tests16 (zeros NTESTS, zeros 2048, zeros 2048, 0, 0);
  do s <- tests128 s;
  do s <- tests256 s;
  do s <- tests512 s;
  do s <- tests1024 s;
  tests2048 s.

(** main, lines 1020-1028: the value it returns; [avx2] is what avx2_supported returns *)
Definition main (avx2 : bool) : res Z :=
  do _ <- (if avx2 then do _ <- run_tests; Ok tt else Ok tt);
  Ok 0.
End Program.
