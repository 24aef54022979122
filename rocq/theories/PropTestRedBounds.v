(** Properties C85 and C86: the programs src/test_red_bounds.c and src/test_shift.c. *)

From Coq Require Import ZArith List Bool Lia.
From Verif Require Import CSem Spec SpecRedBounds ModelBounds ModelTestTables ModelTestRedBounds TestRedBoundsFinal TestRedBoundsChecks.
From Verif Require ModelRed.
Import ListNotations.
Open Scope Z_scope.

(** C85. Whatever the array bound contains at first, the program ends without a failed assertion, an overflow or an access
    out of bounds.  Its bounds after repeated reductions of a 32 bit number are these, each is exact, and the bounds on
    products after one and two reductions are exact. *)
Theorem red_bounds_reductions : forall stk, (forall i, zlen (stk i) = 12) -> exists out, main stk = Ok out
  /\ p_red out =
     [(-2147483648, 2147483647, -524287, 2147479552, 536573, -2147479553);
      (-524287, 536573, -130, 532480, 12413, -520193); (-130, 12413, -3, 12288, 12286, -1);
      (-3, 12286, -2, 8192, 12286, -1); (-2, 12286, -2, 8192, 12286, -1)]
  /\ p_abs out =
     [(-2147483648, 2147483647, -524287, 2147479552, 536573, -2147479553);
      (-536573, 536573, -130, 532480, 12416, -532481); (-12416, 12416, -3, 12288, 12289, -12289);
      (-12289, 12289, -3, 12288, 12289, -12289)]
  /\ (forall a b min min_x max max_x, In (a, b, min, min_x, max, max_x) (p_red out ++ p_abs out) ->
      red_extrema a b min min_x max max_x)
  /\ (exists m1 M1 m2 M2, p_products out = ((-524287, 536573, m1, M1), (-130, 12413, m2, M2))
      /\ mul_extrema (-524287) 536573 (-524287) 536573 m1 M1 /\ mul_extrema (-130) 12413 (-130) 12413 m2 M2).
Proof. exact reductions_L. Qed.
Print Assumptions red_bounds_reductions.

Example red_bounds_reductions_ex :
  (forall i, zlen (stk_ex i) = 12) /\ ln_red 2147479552 = -524287 /\ ln_red (-2147479553) = 536573.
Proof. split; [exact stk_ex_ok|split; vm_compute; reflexivity]. Qed.

(** C85. The bounds of the twenty rounds of Cooley-Tukey and Gentleman-Sande butterflies: each fits in 32 bits and is exact
    for the round before, and a reduction is made exactly when the next bound would not fit. *)
Theorem red_bounds_iterations : forall stk, (forall i, zlen (stk i) = 12) -> exists out, main stk = Ok out
  /\ rounds_exact (ct_exact 0 12288) 12288 (p_ct1 out) /\ rounds_exact (ct_exact (-6144) 6144) 12288 (p_ct2 out)
  /\ rounds_exact (gs_exact 0 12288) 12288 (p_gs1 out) /\ rounds_exact (gs_exact (-6144) 6144) 12288 (p_gs2 out).
Proof. exact iterations_L. Qed.
Print Assumptions red_bounds_iterations.

Example red_bounds_iterations_ex :
  ct_bound 12288 0 12288 = Ok 61432 /\ gs_bound 12288 (-6144) 6144 = Ok 49138 /\ max_abs_red 2147483647 = Ok 536573.
Proof. repeat split; vm_compute; reflexivity. Qed.

(** C85. The bounds on red(x * y) for the three choices of intervals for x and y are exact and attained where the program
    says; the rounds that follow start from their maximum in absolute value: 36864, 21499 or 30709. *)
Theorem red_bounds_options : forall stk, (forall i, zlen (stk i) = 12) -> exists out, main stk = Ok out
  /\ forall a b c d low high B o, In (a, b, c, d, low, high, B, o)
       [(0, 12288, 0, 12288, 0, 12288, 36864, p_opt1 out); (-6144, 6144, -6144, 6144, -6144, 6144, 21499, p_opt2 out);
        (0, 12288, -6144, 6144, -6144, 6144, 30709, p_opt3 out)] ->
     mul_extrema_at a b c d (o_min o) (o_max o)
     /\ (forall x y, a <= x <= b -> c <= y <= d -> Z.abs (ln_red (x * y)) <= B)
     /\ (exists x y, a <= x <= b /\ c <= y <= d /\ Z.abs (ln_red (x * y)) = B)
     /\ rounds_exact (ct_exact low high) B (o_ct o) /\ rounds_exact (gs_exact low high) B (o_gs o).
Proof. exact options_L. Qed.
Print Assumptions red_bounds_options.

Example red_bounds_options_ex : ln_red (12288 * 12288) = -36864 /\ ln_red (6143 * -6143) = 21499 /\ ln_red (12286 * -6143) = 30709.
Proof. repeat split; vm_compute; reflexivity. Qed.

(** C85. The bounds for the 24 tables of constants: no bound for Cooley-Tukey is marked as an overflow, and for
    Gentleman-Sande exactly those for n = 2048 and inputs up to 36864 are.  A bound without the mark holds for the array that the
    transform computes, without overflow, for all inputs within the bound b0 (for the transforms that do not multiply by 1 if
    the table is not a scaled one). *)
Theorem red_bounds_tables : forall stk, (forall i, zlen (stk i) = 12) -> exists out, main stk = Ok out
  /\ length (p_tables out) = 24%nat
  /\ forall j n p rows, nth_error
  [(16, shoup_sred_ntt16_12289); (16, rev_shoup_sred_ntt16_12289);
   (16, shoup_sred_scaled_ntt16_12289); (16, rev_shoup_sred_scaled_ntt16_12289);
   (128, shoup_sred_ntt128_12289); (128, rev_shoup_sred_ntt128_12289);
   (128, shoup_sred_scaled_ntt128_12289); (128, rev_shoup_sred_scaled_ntt128_12289);
   (256, shoup_sred_ntt256_12289); (256, rev_shoup_sred_ntt256_12289);
   (256, shoup_sred_scaled_ntt256_12289); (256, rev_shoup_sred_scaled_ntt256_12289);
   (512, shoup_sred_ntt512_12289); (512, rev_shoup_sred_ntt512_12289);
   (512, shoup_sred_scaled_ntt512_12289); (512, rev_shoup_sred_scaled_ntt512_12289);
   (1024, shoup_sred_ntt1024_12289); (1024, rev_shoup_sred_ntt1024_12289);
   (1024, shoup_sred_scaled_ntt1024_12289); (1024, rev_shoup_sred_scaled_ntt1024_12289);
   (2048, shoup_sred_ntt2048_12289); (2048, rev_shoup_sred_ntt2048_12289);
   (2048, shoup_sred_scaled_ntt2048_12289); (2048, rev_shoup_sred_scaled_ntt2048_12289)] j = Some (n, p) ->
     nth_error (p_tables out) j = Some rows ->
     map (fun '(b0, _, _) => b0) rows = [6144; 12288; 21499; 30709; 36864]
     /\ forall b0 c g, In (b0, c, g) rows ->
        overflow_shown c = false
        /\ (overflow_shown g = true <-> n = 2048 /\ b0 = 36864)
        /\ (forall a, zlen a = n -> (forall i, 0 <= i < n -> Z.abs (at_ a i) <= b0) ->
            forall run, run = ModelRed.mulntt_red_ct_rev2std \/ run = ModelRed.mulntt_red_ct_std2rev
              \/ (In (n, p)
                  [(16, shoup_sred_ntt16_12289); (16, rev_shoup_sred_ntt16_12289);
                   (128, shoup_sred_ntt128_12289); (128, rev_shoup_sred_ntt128_12289);
                   (256, shoup_sred_ntt256_12289); (256, rev_shoup_sred_ntt256_12289);
                   (512, shoup_sred_ntt512_12289); (512, rev_shoup_sred_ntt512_12289);
                   (1024, shoup_sred_ntt1024_12289); (1024, rev_shoup_sred_ntt1024_12289);
                   (2048, shoup_sred_ntt2048_12289); (2048, rev_shoup_sred_ntt2048_12289)]
                  /\ (run = ModelRed.ntt_red_ct_rev2std \/ run = ModelRed.ntt_red_ct_std2rev)) ->
            exists r, run a n p = Ok r /\ zlen r = n /\ forall i, 0 <= i < n -> Z.abs (at_ r i) <= c)
        /\ (overflow_shown g = false ->
            forall a, zlen a = n -> (forall i, 0 <= i < n -> Z.abs (at_ a i) <= b0) ->
            forall run, run = ModelRed.nttmul_red_gs_rev2std \/ run = ModelRed.nttmul_red_gs_std2rev
              \/ run = ModelRed.ntt_red_gs_rev2std \/ run = ModelRed.ntt_red_gs_std2rev ->
            exists r, run a n p = Ok r /\ zlen r = n /\ forall i, 0 <= i < n -> Z.abs (at_ r i) <= g).
Proof. exact tables_L. Qed.
Print Assumptions red_bounds_tables.

Example red_bounds_tables_ex :
  ntt_ct_bounds 300 4 [0; -4096; -4096; 1212] [0; 0; 0] = Ok (13014, [300; 600; 13014])
  /\ nth_error tables 0 = Some (16, shoup_sred_ntt16_12289)
  /\ ModelRed.ntt_red_ct_rev2std (repeat 36864 16) 16 shoup_sred_ntt16_12289
     = Ok [589824; 0; 0; 0; 0; 0; 0; 0; 0; 0; 0; 0; 0; 0; 0; 0].
Proof. split; [vm_compute; reflexivity|]. split; [reflexivity|vm_compute; reflexivity]. Qed.

(** C85. The tests that main does not run: with the slow check they print the same as without it, so that the check never
    finds an error; they show the extrema for each of the bounds on x and of the constants, and these are exact. *)
Theorem red_bounds_checks_pass :
  (exists out, (forall double_check, test_min_max_red double_check = Ok out) /\ length out = 26%nat
    /\ (forall i, 0 <= i <= 25 -> exists min min_x max max_x, In (2 ^ (7 + i), min, min_x, max, max_x) out)
    /\ forall b min min_x max max_x, In (b, min, min_x, max, max_x) out -> red_extrema (- b) b min min_x max max_x)
  /\ (exists out, (forall double_check, test_min_max_red_mul double_check = Ok out) /\ length out = Z.to_nat 417792
    /\ (forall i w, 0 <= i <= 16 -> 1 <= Z.abs w <= 12288 ->
        exists min min_x max max_x, In (2 ^ (7 + i), w, min, min_x, max, max_x) out)
    /\ forall b w min min_x max max_x, In (b, w, min, min_x, max, max_x) out ->
       - b <= min_x <= b /\ min = ln_red (w * min_x) /\ - b <= max_x <= b /\ max = ln_red (w * max_x)
       /\ forall x, - b <= x <= b -> min <= ln_red (w * x) <= max)
  /\ (exists out, (forall double_check, test_min_max_red_mul_interval double_check = Ok out) /\ length out = 104%nat
    /\ (forall i w, 0 <= i <= 25 -> In w [1536; 3072; 6144; 12288] -> exists min max, In (2 ^ (7 + i), w, min, max) out)
    /\ forall b w min max, In (b, w, min, max) out -> mul_extrema_at (- b) b (- w) w min max).
Proof. exact checks_L. Qed.
Print Assumptions red_bounds_checks_pass.

(** The first line of the first two tests, for b = 128 (and w = -5) *)
Example red_bounds_checks_pass_ex :
  min_red (-128) 128 = Ok (0, 0) /\ max_red (-128) 128 = Ok (12286, -1)
  /\ min_red_mul (-128) 128 (-5) = Ok (0, 0) /\ max_red_mul (-128) 128 (-5) = Ok (12274, 1) /\ ln_red (-5 * 1) = 12274.
Proof. repeat split; vm_compute; reflexivity. Qed.

(** C85. What the slow checks decide: whether the extrema hold for all x, or for all products they look at. *)
Theorem red_bounds_checks_decide :
  (forall lo hi min max, - 2 ^ 60 <= lo -> hi <= 2 ^ 60 ->
    (check_all lo hi red min max = Ok tt <-> forall x, lo <= x <= hi -> min <= ln_red x <= max)
    /\ (check_all lo hi red min max = Ok tt \/ check_all lo hi red min max = Err Exited))
  /\ (forall b w min max, 128 <= b <= 2 ^ 32 -> 1 <= w <= 12288 ->
    (check_products b w min max = Ok tt <->
     forall x y, (if b <? 30000 then - b else b - 30000) <= Z.abs x <= b -> (if w <? 1000 then - w else w - 1000) <= y <= w ->
     min <= ln_red (x * y) <= max)
    /\ (check_products b w min max = Ok tt \/ check_products b w min max = Err Exited)).
Proof. exact checks_decide_L. Qed.
Print Assumptions red_bounds_checks_decide.

Example red_bounds_checks_decide_ex :
  check_all (-128) 128 red 0 12285 = Err Exited /\ check_all (-128) 128 red 0 12286 = Ok tt
  /\ check_products 128 2 0 12286 = Ok tt /\ check_products 128 2 1 12286 = Err Exited.
Proof. repeat split; vm_compute; reflexivity. Qed.

(** C86. The masks that test_shift.c prints for i and -i: x >> 31 and x >> 11 are -1 for negative x and 0 otherwise, so that
    (x >> s) & Q is Q or 0. *)
Theorem test_shift_masks :
  exists out, shift_main = Ok out /\ length out = 1003%nat
  /\ forall i, 0 <= i < 1003 -> nth_error out (Z.to_nat i) = Some
      (if i =? 0 then [0; 0; 0; 0; 0; 0; 0; 0] else [0; 0; -1; -1; 0; 0; 12289; 12289]).
Proof. exact shift_L. Qed.
Print Assumptions test_shift_masks.

Example test_shift_masks_ex : Z.shiftr (-1002) 11 = -1 /\ Z.land (Z.shiftr (-1002) 31) 12289 = 12289 /\ Z.shiftr (-2049) 11 = -2.
Proof. repeat split; vm_compute; reflexivity. Qed.

