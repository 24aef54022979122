(** test_mod.c: division by Q by a multiplication and a shift. *)

From Coq Require Import ZArith List Bool.
From Verif Require Import CSem ModelTestMod TestModFinal.
Import ListNotations.
Open Scope Z_scope.

(** C69. The shifts for which the test says "works": 41 to 45, and then the remainder is right on the whole range of a
    product of two values below Q. *)
Theorem approx_modq_exact :
  forall n x, 41 <= n <= 45 -> 0 <= x <= 12288 * 12288 -> approx_modq x n = x mod 12289.
Proof. exact approx_exact_L. Qed.
Print Assumptions approx_modq_exact.

Example approx_modq_exact_ex :
  approx_modq (12288 * 12288) 41 = 1 /\ approx_modq 150994943 45 = 0 /\ approx_modq 105034082 41 = 12288
  /\ approx_modq 105034082 40 = 4294967295.
Proof. vm_compute. repeat split. Qed.

(** C69. With the shift by 45 it is right for every 32-bit value. *)
Theorem approx_modq_45_exact :
  forall x, 0 <= x < 2 ^ 32 -> approx_modq x 45 = x mod 12289.
Proof. exact approx_modq_45. Qed.
Print Assumptions approx_modq_45_exact.

Example approx_modq_45_exact_ex :
  approx_modq 4294967295 45 = 4294967295 mod 12289 /\ approx_modq 2270847442 45 = 12288
  /\ approx_modq 2270847442 44 = 4294967295.
Proof. vm_compute. repeat split. Qed.

(** C69. With the shifts by 41 to 44 it is not; the first value for which it is wrong. *)
Theorem approx_modq_first_failure :
  forall n F, In (n, F) [(41, 254259409); (42, 878036760); (43, 878036760); (44, 2270847442)] ->
  (forall x, 0 <= x < F -> approx_modq x n = x mod 12289) /\ approx_modq F n <> F mod 12289.
Proof. exact approx_first_L. Qed.
Print Assumptions approx_modq_first_failure.

Example approx_modq_first_failure_ex :
  approx_modq 254259409 41 = 4294967295 /\ 254259409 mod 12289 = 12288 /\ 254259409 < 2 ^ 32.
Proof. vm_compute. repeat split. Qed.

(** C69. All that the unsigned part of the program prints: for each shift the approximation of 1/Q and the first value for
    which the remainder is wrong, if there is one. *)
Theorem test_all_approx_prints :
  test_all_approx = Ok
    [(30, 87375, Some 122889); (31, 174749, Some 319513); (32, 349497, Some 3219717); (33, 698994, Some 3219717);
     (34, 1397988, Some 3219717); (35, 2795976, Some 3219717); (36, 5591951, Some 7557734); (37, 11183901, Some 23238498);
     (38, 22367802, Some 23238498); (39, 44735603, Some 48320347); (40, 89471205, Some 105034082);
     (41, 178942409, None); (42, 357884817, None); (43, 715769634, None); (44, 1431539267, None); (45, 2863078533, None);
     (46, 1431189770, Some 12289); (47, 2862379539, Some 12289); (48, 1429791782, Some 12289); (49, 2859583564, Some 12289)].
Proof. exact test_all_approx_printed. Qed.
Print Assumptions test_all_approx_prints.

Example test_all_approx_prints_ex :
  approx_modq 122889 30 = 4294967295 /\ 122889 mod 12289 = 12288 /\ approx_modq 122888 30 = 12287
  /\ 2 ^ 46 / 12289 + 1 = 4294967296 + 1431189770 /\ approx_modq 12289 46 = 12289.
Proof. vm_compute. repeat split. Qed.

(** C69. The remainder the signed approximation is compared with is the one of mathematics. *)
Theorem pmodq_exact :
  forall x, -2 ^ 31 <= x < 2 ^ 31 -> pmodq x = Ok (x mod 12289).
Proof. exact (fun x _ => pmodq_ok x). Qed.
Print Assumptions pmodq_exact.

Example pmodq_exact_ex : pmodq (-2147483648) = Ok 6813 /\ smodq (-2147483648) = Ok (-5476) /\ pmodq (-12289) = Ok 0.
Proof. vm_compute. repeat split. Qed.

(** C69. With the shifts by 44 and 45 the signed approximation is right from -2147478171 up. *)
Theorem approx_pmodq_exact :
  forall n x, n = 44 \/ n = 45 -> -2147478171 <= x < 2 ^ 31 -> approx_pmodq x n = Ok (x mod 12289).
Proof. exact (fun n x Hn Hx => approx_pmodq_exact_L n x Hn (conj (proj1 Hx) (proj1 (Z.lt_succ_r x 2147483647) (proj2 Hx)))). Qed.
Print Assumptions approx_pmodq_exact.

Example approx_pmodq_exact_ex :
  approx_pmodq (-2147478171) 44 = Ok 1 /\ approx_pmodq 2147483647 44 = Ok (2147483647 mod 12289)
  /\ approx_pmodq (-12289) 45 = Ok 0 /\ approx_pdivq (-12289) 45 = Ok (-2).
Proof. vm_compute. repeat split. Qed.

(** C69. Below that, the product of the quotient and Q does not fit in 32 bits. *)
Theorem approx_pmodq_overflow :
  forall n x, n = 44 \/ n = 45 -> -2 ^ 31 <= x <= -2147478172 -> approx_pmodq x n = Err SignedOverflow.
Proof. exact approx_pmodq_overflow_L. Qed.
Print Assumptions approx_pmodq_overflow.

Example approx_pmodq_overflow_ex :
  approx_pdivq (-2147478172) 45 = Ok (-174749) /\ -174749 * 12289 < -2 ^ 31 /\ pmodq (-2147478172) = Ok 0.
Proof. vm_compute. repeat split. Qed.

(** C69. With smaller shifts the signed test reports a failure, and it is the first one among the non-negative values. *)
Theorem test_pmod_approx_fails_at :
  forall n F, In (n, F)
    [(30, 122889); (31, 319513); (32, 3219717); (33, 3219717); (34, 3219717); (35, 3219717); (36, 7557734);
     (37, 23238498); (38, 23238498); (39, 48320347); (40, 105034082); (41, 254259409); (42, 878036760); (43, 878036760)] ->
  test_pmod_approx n = Ok (Fails F 12288 (-1)) /\ (forall x, 0 <= x < F -> approx_pmodq x n = Ok (x mod 12289)).
Proof. exact signed_report_L. Qed.
Print Assumptions test_pmod_approx_fails_at.

Example test_pmod_approx_fails_at_ex :
  approx_pmodq 254259409 41 = Ok (-1) /\ pmodq 254259409 = Ok 12288 /\ approx_pmodq 254259408 41 = Ok 12287.
Proof. vm_compute. repeat split. Qed.

(** C69. With larger shifts the 64-bit product overflows. *)
Theorem approx_pmodq_first_overflow :
  forall n F, In (n, F) [(46, 1610743808); (47, 805371904); (48, 402685952); (49, 201342976)] ->
  (forall x, 0 <= x < F -> approx_pmodq x n = Ok (x mod 12289))
  /\ (forall x, F <= x <= 2147483647 -> approx_pmodq x n = Err SignedOverflow).
Proof. exact signed_46_L. Qed.
Print Assumptions approx_pmodq_first_overflow.

Example approx_pmodq_first_overflow_ex :
  approx_pmodq 1610743807 46 = Ok (1610743807 mod 12289) /\ approx_pmodq 1610743808 46 = Err SignedOverflow
  /\ 1610743808 * (2 ^ 46 / 12289 + 1) >= 2 ^ 63.
Proof. vm_compute. repeat split. discriminate. Qed.

(** C69, refuted: the signed test has no shift for which it completes and says "works". *)
Theorem test_pmod_approx_refuted :
  (forall n, 44 <= n <= 49 -> test_pmod_approx n = Err SignedOverflow) /\ test_all_pmod_approx = Err SignedOverflow.
Proof. exact (conj test_pmod_approx_overflows test_all_pmod_approx_overflows). Qed.
Print Assumptions test_pmod_approx_refuted.

Example test_pmod_approx_refuted_ex :
  approx_pmodq (-2147478172) 44 = Err SignedOverflow /\ approx_pmodq 201342976 49 = Err SignedOverflow.
Proof. vm_compute. repeat split. Qed.

(** C69, refuted: the program overflows before it prints anything, in the sequence x = 16x + 4. *)
Theorem test_mod_main_refuted :
  sequence_loop 4 = Err SignedOverflow /\ main = Err SignedOverflow.
Proof. exact (conj sequence_overflows_L main_overflows). Qed.
Print Assumptions test_mod_main_refuted.

Example test_mod_main_refuted_ex :
  mul32 16 71582788 = Ok 1145324608 /\ add32 1145324608 4 = Ok 1145324612 /\ mul32 16 1145324612 = Err SignedOverflow.
Proof. vm_compute. repeat split. Qed.
