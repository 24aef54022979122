(** Properties of the programs given to the verifier (verifier/vstte20-benchmarks) and of the
    test programs of the interval analysis (src/tests_in_paper): C65, C66. *)

From Coq Require Import ZArith List Bool Lia.
From Verif Require Import CSem Spec SpecInterval Exlib ExTables AvxProdFinal ModelGen ModelInterval ModelHarness HarnessFinal PaperFinal.
From Verif Require ModelRed.
Import ListNotations.
Open Scope Z_scope.

(** C65: a run of a harness with the generated tables is discarded exactly when a value
    chosen for the array is not in [0, Q-1]; every other run passes all assertions and gives
    what the library transform gives on the chosen array, with the intrinsic or without *)
Theorem harnesses_verified :
  forall malloc T intrinsic, (forall n, 0 <= n -> zlen (malloc n) = n) ->
  make_red_tables malloc 1024 1014 = Ok (Written T) ->
  forall main g p, In (main, g, p)
    [(harness_intt_red1024 true intrinsic T, ModelRed.ntt_red_ct_std2rev, red_inv_omega_powers_rev T);
     (harness_intt_red1024b true intrinsic T, ModelRed.ntt_red_ct_rev2std, red_inv_omega_powers T);
     (harness_ntt_red1024 true intrinsic T, ModelRed.ntt_red_ct_std2rev, red_omega_powers_rev T);
     (harness_ntt_red1024b true intrinsic T, ModelRed.ntt_red_ct_rev2std, red_omega_powers T);
     (harness_ntt_red1024e true intrinsic T, ModelRed.ntt_red_gs_std2rev, red_omega_powers T);
     (harness_ntt_red1024f true intrinsic T, ModelRed.ntt_red_gs_rev2std, red_omega_powers_rev T)] ->
  forall nd,
  (main nd = Discarded <-> exists i, 0 <= i < 1024 /\ ~ (0 <= nd i < 12289))
  /\ (forall a, zlen a = 1024 -> all_in 0 12288 a -> (forall i, 0 <= i < 1024 -> nd i = at_ a i) ->
       exists r, main nd = Ran (Ok r) /\ g a 1024 p = Ok r /\ all_in (- 2 ^ 31) (2 ^ 31 - 1) r).
Proof. exact harnesses_verified_L. Qed.
Print Assumptions harnesses_verified.

Example harnesses_verified_ex :
  exists T r, make_red_tables malloc77 1024 1014 = Ok (Written T)
  /\ harness_ntt_red1024 true true T exND = Ran (Ok r)
  /\ harness_ntt_red1024 true true T (fun i => if i =? 1000 then 12289 else 0) = Discarded
  /\ ntt_red_gs_rev2std true true [5; 7; 12288; 2] 4 [77; 1; 1; 2012] = Ok [12302; -5821; -12278; 5817].
Proof.
  destruct tables1024_made as (T & ET).
  assert (HI : In (harness_ntt_red1024 true true T, ModelRed.ntt_red_ct_std2rev, red_omega_powers_rev T)
    [(harness_intt_red1024 true true T, ModelRed.ntt_red_ct_std2rev, red_inv_omega_powers_rev T);
     (harness_intt_red1024b true true T, ModelRed.ntt_red_ct_rev2std, red_inv_omega_powers T);
     (harness_ntt_red1024 true true T, ModelRed.ntt_red_ct_std2rev, red_omega_powers_rev T);
     (harness_ntt_red1024b true true T, ModelRed.ntt_red_ct_rev2std, red_omega_powers T);
     (harness_ntt_red1024e true true T, ModelRed.ntt_red_gs_std2rev, red_omega_powers T);
     (harness_ntt_red1024f true true T, ModelRed.ntt_red_gs_rev2std, red_omega_powers_rev T)])
    by (right; right; left; reflexivity).
  assert (H := harnesses_verified malloc77 T true malloc77_len ET _ _ _ HI). clear HI.
  destruct (proj2 (H exND) exHA exHA_len exHA_in exHA_at) as (r & E & _).
  exists T, r. split; [exact ET|]. split; [exact E|]. split; [|vm_compute; reflexivity].
  apply (H (fun i => if i =? 1000 then 12289 else 0)). exists 1000. split; [lia|]. cbn. lia.
Qed.

(** C65: the same for the two harnesses that also choose the constants, in [-6144, 6143] *)
Theorem table_harnesses_verified :
  forall intrinsic main g, In (main, g)
    [(harness_ntt_red1024c true intrinsic, ModelRed.ntt_red_ct_std2rev);
     (harness_ntt_red1024d true intrinsic, ModelRed.ntt_red_ct_rev2std)] ->
  forall nd,
  (main nd = Discarded <->
     exists i, 0 <= i < 1024 /\ (~ (0 <= nd i < 12289) \/ ~ (-6144 <= nd (1024 + i) < 6144)))
  /\ (forall a p, zlen a = 1024 -> zlen p = 1024 -> all_in 0 12288 a -> all_in (-6144) 6143 p ->
       (forall i, 0 <= i < 1024 -> nd i = at_ a i /\ nd (1024 + i) = at_ p i) ->
       exists r, main nd = Ran (Ok r) /\ g a 1024 p = Ok r /\ all_in (- 2 ^ 31) (2 ^ 31 - 1) r).
Proof. exact table_harnesses_verified_L. Qed.
Print Assumptions table_harnesses_verified.

Example table_harnesses_verified_ex :
  let nd i := if i <? 1024 then exND i else exND (i - 1024) / 2 in
  harness_ntt_red1024c true false nd = Discarded
  /\ exists r, harness_ntt_red1024d true false (fun i => if i <? 1024 then exND i else - (exND (i - 1024) / 2)) = Ran (Ok r).
Proof.
  cbv zeta. split.
  - refine (proj2 (proj1 (table_harnesses_verified false _ _ (or_introl eq_refl) _)) _).
    exists 513. split; [lia|]. right. vm_compute. intros [_ H]. discriminate H.
  - destruct (proj2 (table_harnesses_verified false _ _ (or_intror (or_introl eq_refl))
      (fun i => if i <? 1024 then exND i else - (exND (i - 1024) / 2)))
      exHA (map (fun v => - (v / 2)) exHA) exHA_len ltac:(vm_compute; reflexivity) exHA_in) as (r & E & _).
    + check_all_in.
    + intros i Hi. destruct (Z.ltb_spec i 1024); [|lia]. destruct (Z.ltb_spec (1024 + i) 1024); [lia|].
      rewrite (exHA_at i) by lia. split; [reflexivity|]. replace (1024 + i - 1024) with i by lia.
      rewrite (exHA_at i) by lia. unfold at_. change 0 with ((fun v => - (v / 2)) 0) at 2. now rewrite map_nth.
    + exists r. exact E.
Qed.

(** C65: the value that the intrinsic stands for is what mul_red computes, for all products
    within the bounds of the library assertion *)
Theorem intrinsic_is_mul_red :
  forall x y, -8796042698752 <= x * y <= 2 ^ 43 - 1 ->
  forall intrinsic, mul_red true intrinsic x y = Ok (3 * ((x * y) mod 4096) - (x * y) / 4096)
    /\ ModelRed.mul_red x y = mul_red true intrinsic x y.
Proof. exact intrinsic_is_mul_red_L. Qed.
Print Assumptions intrinsic_is_mul_red.

Example intrinsic_is_mul_red_ex :
  mul_red true true (-2147469629) 4096 = Ok 2147469629 /\ mul_red true false (-2147469629) 4096 = Ok 2147469629
  /\ mul_red true true 12288 (-6144) = Ok 18432 /\ ModelRed.mul_red 12288 (-6144) = Ok 18432.
Proof. repeat split; vm_compute; reflexivity. Qed.

(** C65: the assertion of the benchmark copy admits a product on which mul_red overflows,
    which the intrinsic hides *)
Theorem safe_assertion_refuted :
  exists x y v, -2147483648 <= x <= 2147483647 /\ -6144 <= y <= 6144 /\ x * y <= 8796093026303
    /\ mul_red true true x y = Ok v /\ mul_red true false x y = Err SignedOverflow.
Proof. exact safe_assertion_refuted_L. Qed.
Print Assumptions safe_assertion_refuted.

Example safe_assertion_refuted_ex :
  mul_red true true (-2147483648) (-4096) = Ok (-2147483648)
  /\ mul_red true false (-2147483648) (-4096) = Err SignedOverflow
  /\ mul_red true false 2147483647 4096 = Ok (-2147483647).
Proof. repeat split; vm_compute; reflexivity. Qed.

(** C65: the bounds of the assertion without the macro SAFE do not hold: a harness fails *)
Theorem alternative_bounds_refuted :
  forall malloc T intrinsic, (forall n, 0 <= n -> zlen (malloc n) = n) ->
  make_red_tables malloc 1024 1014 = Ok (Written T) ->
  exists nd, (forall i, 0 <= nd i < 12289) /\ harness_ntt_red1024e false intrinsic T nd = Ran (Err AssertFail).
Proof. exact alternative_bounds_refuted_L. Qed.
Print Assumptions alternative_bounds_refuted.

Example alternative_bounds_refuted_ex :
  mul_red false true (-12288) (-1360) = Err AssertFail /\ mul_red true true (-12288) (-1360) = Ok (-4080)
  /\ exists T nd, make_red_tables malloc77 1024 1014 = Ok (Written T)
     /\ harness_ntt_red1024e false true T nd = Ran (Err AssertFail).
Proof.
  split; [vm_compute; reflexivity|]. split; [vm_compute; reflexivity|]. destruct tables1024_made as (T & ET).
  destruct (alternative_bounds_refuted malloc77 T true malloc77_len ET) as (nd & _ & E).
  exists T, nd. split; [exact ET|exact E].
Qed.

(** C66: the test programs run to the end with the generated tables, display eleven rows
    without a warning, and the last intervals enclose the result of every run of the library
    transform from an array with values in [0, Q-1] *)
Theorem paper_tests_verified :
  forall malloc T, (forall n, 0 <= n -> zlen (malloc n) = n) ->
  make_red_tables malloc 1024 1014 = Ok (Written T) ->
  forall main g p, In (main, g, p)
    [(test_intt_red1024 T, ModelRed.ntt_red_ct_std2rev, red_inv_omega_powers_rev T);
     (test_intt_red1024b T, ModelRed.ntt_red_ct_rev2std, red_inv_omega_powers T);
     (test_ntt_red1024 T, ModelRed.ntt_red_ct_std2rev, red_omega_powers_rev T);
     (test_ntt_red1024b T, ModelRed.ntt_red_ct_rev2std, red_omega_powers T);
     (test_ntt_red1024e T, ModelRed.ntt_red_gs_std2rev, red_omega_powers T);
     (test_ntt_red1024f T, ModelRed.ntt_red_gs_rev2std, red_omega_powers_rev T)] ->
  exists out A', main = Ok (out, A') /\ length out = 11%nat /\ no_warning out /\ printed_within 2147471362 out
    /\ forall a, zlen a = 1024 -> all_in 0 12288 a -> exists r, g a 1024 p = Ok r /\ encloses A' r.
Proof. exact paper_tests_verified_L. Qed.
Print Assumptions paper_tests_verified.

Example paper_tests_verified_ex :
  exists T out A' r, make_red_tables malloc77 1024 1014 = Ok (Written T)
  /\ test_ntt_red1024e T = Ok (out, A') /\ no_warning out
  /\ ModelRed.ntt_red_gs_std2rev exHA 1024 (red_omega_powers T) = Ok r /\ encloses A' r.
Proof.
  destruct tables1024_made as (T & ET).
  destruct (paper_tests_verified malloc77 T malloc77_len ET (test_ntt_red1024e T) ModelRed.ntt_red_gs_std2rev (red_omega_powers T))
    as (out & A' & E & _ & W & _ & H).
  { right; right; right; right; left. reflexivity. }
  destruct (H exHA exHA_len exHA_in) as (r & Er & HE). exists T, out, A', r. auto.
Qed.

(** C66: the two programs with intervals of constants also run to the end and display eleven
    rows without a warning, but their last interval misses the result of a run from values in
    [0, Q-1] with constants in [-6144, 6144] *)
Theorem paper_interval_tests_refuted :
  forall main g, In (main, g)
    [(test_ntt_red1024c, ModelRed.ntt_red_ct_std2rev); (test_ntt_red1024d, ModelRed.ntt_red_ct_rev2std)] ->
  exists out A' a p r, main = Ok (out, A') /\ length out = 11%nat /\ no_warning out
    /\ last A' (0, 0) = (-71854613, 71793177)
    /\ zlen a = 1024 /\ all_in 0 12288 a /\ zlen p = 1024 /\ all_in (-6144) 6144 p
    /\ g a 1024 p = Ok r /\ last r 0 = -77547700 /\ ~ encloses A' r.
Proof. exact paper_interval_tests_refuted_L. Qed.
Print Assumptions paper_interval_tests_refuted.

Example paper_interval_tests_refuted_ex :
  red_mul (-42997, 30720) (-6144, 6144) = Ok (-64494, 70640) /\ ln_red (-42997 * 6143) = 76741
  /\ exists out A' r, test_ntt_red1024c = Ok (out, A') /\ no_warning out /\ ~ encloses A' r
     /\ exists a p, all_in 0 12288 a /\ all_in (-6144) 6144 p /\ ModelRed.ntt_red_ct_std2rev a 1024 p = Ok r.
Proof.
  split; [vm_compute; reflexivity|]. split; [vm_compute; reflexivity|].
  destruct (paper_interval_tests_refuted test_ntt_red1024c ModelRed.ntt_red_ct_std2rev)
    as (out & A' & a & p & r & E & _ & NW & _ & _ & Ia & _ & Ip & Er & _ & NE); [left; reflexivity|].
  exists out, A', r. repeat (split; [assumption|]). exists a, p. auto.
Qed.
