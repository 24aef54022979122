(** The test programs: they return 0, and what that says. *)

From Coq Require Import ZArith List Bool.
From Verif Require Import CSem Spec ModelGen ModelNtt ModelNaive ModelRed ModelProducts ModelAvxProd ModelTests
  CommittedTables ExTables AvxProdFinal HarnessFinal ShuffleFinal TestsFinal TestsSound.
Import Spec.
Import ListNotations.
Open Scope Z_scope.

(** C67. test_ntt16.c, test_ntt256.c, test_ntt512.c and test_ntt1024.c return 0, for every outcome of random() and of
    the cycle counter. *)
Theorem test_ntt_main_ok :
  forall malloc size psi T m bt rnd clk stk, (forall n, 0 <= n -> zlen (malloc n) = n) ->
  make_tables malloc size psi = Ok (Written T) -> make_bitrev_table size = Ok (Written (m, bt)) ->
  (forall i, 0 <= rnd i < 2 ^ 31) -> (forall p, zlen (stk p) = size) ->
  test_ntt_main rnd clk stk size T bt m = Ok 0.
Proof. exact test_ntt_main_ok_L. Qed.
Print Assumptions test_ntt_main_ok.

Example test_ntt_main_ex :
  make_tables malloc77 16 1212 = Ok (Written T16)
  /\ make_bitrev_table 16 = Ok (Written (BITREV16_NPAIRS, bitrev16))
  /\ test_ntt_main ex_rnd ex_clk ex_stk 16 T16 bitrev16 BITREV16_NPAIRS = Ok 0
  /\ test_simple_polys ex_stk 16 bitrev16 BITREV16_NPAIRS (default_variant 16 T16) (fun a => Ok a) (t_omega T16) true = Err Exited.
Proof.
  split; [exact T16_made|]. split; [exact (proj1 committed_bitrev_tables_L)|]. split; [exact ex_main16|].
  vm_compute. reflexivity.
Qed.

(** C67. The same for test_naive_ntt16.c, test_naive_ntt256.c, test_naive_ntt512.c and test_naive_ntt1024.c. *)
Theorem test_naive_ntt_main_ok :
  forall malloc size psi T m bt rnd clk stk, (forall n, 0 <= n -> zlen (malloc n) = n) ->
  make_tables malloc size psi = Ok (Written T) -> make_bitrev_table size = Ok (Written (m, bt)) ->
  (forall i, 0 <= rnd i < 2 ^ 31) -> (forall p, zlen (stk p) = size) ->
  test_naive_ntt_main rnd clk stk size T bt m = Ok 0.
Proof. exact test_naive_ntt_main_ok_L. Qed.
Print Assumptions test_naive_ntt_main_ok.

Example test_naive_ntt_main_ex :
  test_naive_ntt_main ex_rnd ex_clk ex_stk 16 T16 bitrev16 BITREV16_NPAIRS = Ok 0
  /\ ntt_normalize (repeat (-3) 16) 16 = Ok (repeat 12286 16).
Proof.
  split; [|vm_compute; reflexivity].
  exact (test_naive_ntt_main_ok malloc77 16 1212 T16 BITREV16_NPAIRS bitrev16 ex_rnd ex_clk ex_stk malloc77_len T16_made
    (proj1 committed_bitrev_tables_L) ex_rnd_range ex_stk_len).
Qed.

(** C67. The same for test_ntt_red_asm16.c, test_ntt_red_asm256.c and test_ntt_red_asm512.c, whether or not AVX2 is
    there. *)
Theorem test_ntt_red_asm_main_ok :
  forall malloc size psi T m bt rnd clk stk avx2 shi sh, (forall n, 0 <= n -> zlen (malloc n) = n) ->
  make_red_tables malloc size psi = Ok (Written T) -> 16 <= size <= 1024 -> make_bitrev_table size = Ok (Written (m, bt)) ->
  (forall i, 0 <= rnd i < 2 ^ 31) -> (forall p, zlen (stk p) = size) ->
  test_ntt_red_asm_main avx2 shi sh rnd clk stk size T bt m = Ok 0.
Proof. exact test_ntt_red_asm_main_ok_L. Qed.
Print Assumptions test_ntt_red_asm_main_ok.

Example test_ntt_red_asm_main_ex :
  test_ntt_red_asm_main true true true ex_rnd ex_clk ex_stk 16 R16 bitrev16 BITREV16_NPAIRS = Ok 0
  /\ test_simple_product ex_stk 16 (red_variant 16 R16 true) (red_product1_asm true 16 R16) 3 15 = Ok tt
  /\ test_simple_product ex_stk 16 (red_variant 16 R16 true) (fun h _ _ _ => Ok h) 3 15 = Err Exited.
Proof.
  split; [|split; vm_compute; reflexivity].
  exact (test_ntt_red_asm_main_ok malloc77 16 1212 R16 BITREV16_NPAIRS bitrev16 ex_rnd ex_clk ex_stk true true true
    malloc77_len R16_made le16 (proj1 committed_bitrev_tables_L) ex_rnd_range ex_stk_len).
Qed.

(** C67. The same for test_ntt_red_asm1024.c. *)
Theorem test_ntt_red_asm1024_main_ok :
  forall malloc T m bt rnd clk stk avx2, (forall n, 0 <= n -> zlen (malloc n) = n) ->
  make_red_tables malloc 1024 1014 = Ok (Written T) -> make_bitrev_table 1024 = Ok (Written (m, bt)) ->
  (forall i, 0 <= rnd i < 2 ^ 31) -> (forall p, zlen (stk p) = 1024) ->
  test_ntt_red_asm1024_main avx2 rnd clk stk T bt m = Ok 0.
Proof. exact test_ntt_red_asm1024_main_ok_L. Qed.
Print Assumptions test_ntt_red_asm1024_main_ok.

Example test_ntt_red_asm1024_main_ex :
  exists T, make_red_tables malloc77 1024 1014 = Ok (Written T)
  /\ make_bitrev_table 1024 = Ok (Written (BITREV1024_NPAIRS, bitrev1024))
  /\ test_ntt_red_asm1024_main true ex_rnd ex_clk ex_stk1024 T bitrev1024 BITREV1024_NPAIRS = Ok 0.
Proof.
  destruct tables1024_made as [T HT]. exists T. split; [exact HT|].
  assert (HB := proj1 (proj2 (proj2 (proj2 committed_bitrev_tables_L)))). split; [exact HB|].
  exact (test_ntt_red_asm1024_main_ok malloc77 T _ _ ex_rnd ex_clk ex_stk1024 true malloc77_len HT HB ex_rnd_range ex_stk1024_len).
Qed.

(** C67. The tests of test_ntt_red16.c, test_ntt_red256.c, test_ntt_red512.c and test_ntt_red1024.c succeed: main
    reaches its speed tests. *)
Theorem test_ntt_red_tests_ok :
  forall malloc size psi T m bt rnd stk shi sh, (forall n, 0 <= n -> zlen (malloc n) = n) ->
  make_red_tables malloc size psi = Ok (Written T) -> size <= 1024 -> make_bitrev_table size = Ok (Written (m, bt)) ->
  (forall i, 0 <= rnd i < 2 ^ 31) -> (forall p, zlen (stk p) = size) ->
  exists r, tests rnd stk size bt m (red_variant size T shi) (red_functions size T sh) 0 = Ok r.
Proof. exact test_ntt_red_tests_ok_L. Qed.
Print Assumptions test_ntt_red_tests_ok.

Example test_ntt_red_tests_ex :
  exists r, tests ex_rnd ex_stk 16 bitrev16 BITREV16_NPAIRS (red_variant 16 R16 false) (red_functions 16 R16 false) 0 = Ok r.
Proof.
  exact (test_ntt_red_tests_ok malloc77 16 1212 R16 BITREV16_NPAIRS bitrev16 ex_rnd ex_stk false false malloc77_len R16_made
    (proj2 le16) (proj1 committed_bitrev_tables_L) ex_rnd_range ex_stk_len).
Qed.

(** C67. The speed tests of test_ntt_red16.c overflow a signed integer: ntt_red16_ct_rev2std is called over and over on the
    same array, which is never reduced. *)
Theorem test_ntt_red16_main_refuted :
  forall malloc T m bt rnd clk stk shi sh, (forall n, 0 <= n -> zlen (malloc n) = n) ->
  make_red_tables malloc 16 1212 = Ok (Written T) -> make_bitrev_table 16 = Ok (Written (m, bt)) ->
  (forall i, 0 <= rnd i < 2 ^ 31) -> (forall p, zlen (stk p) = 16) ->
  test_ntt_red_main shi sh rnd clk stk 16 T bt m = Err SignedOverflow.
Proof. exact test_ntt_red16_main_refuted_L. Qed.
Print Assumptions test_ntt_red16_main_refuted.

Example test_ntt_red16_main_ex :
  calls (r_ct_rev2std 16 R16) 11 iota16 = Ok eleventh16
  /\ calls (r_ct_rev2std 16 R16) 12 iota16 = Err SignedOverflow
  /\ test_ntt_red_main true true ex_rnd ex_clk ex_stk 16 R16 bitrev16 BITREV16_NPAIRS = Err SignedOverflow.
Proof.
  split; [vm_compute; reflexivity|]. split; [vm_compute; reflexivity|].
  exact (test_ntt_red16_main_refuted malloc77 R16 BITREV16_NPAIRS bitrev16 ex_rnd ex_clk ex_stk true true malloc77_len R16_made
    (proj1 committed_bitrev_tables_L) ex_rnd_range ex_stk_len).
Qed.

(** C68. When one of the programs returns 0, each transform under test is right on every power of X, twice in a row. *)
Theorem main_certifies_transforms :
  forall rnd clk stk n bt np V X, 0 < n < 2 ^ 31 -> (forall p, zlen (stk p) = n) ->
  0 <= f_omega X < Q -> 0 <= f_inv_omega X < Q ->
  main rnd clk stk n bt np V X = Ok 0 ->
  forall f omega s2r, In (f, omega, s2r)
     [(f_ct_rev2std X, f_omega X, false); (f_gs_rev2std X, f_omega X, false);
      (f_ct_std2rev X, f_omega X, true); (f_gs_std2rev X, f_omega X, true);
      (f_intt_ct_rev2std X, f_inv_omega X, false); (f_intt_gs_rev2std X, f_inv_omega X, false);
      (f_intt_ct_std2rev X, f_inv_omega X, true); (f_intt_gs_std2rev X, f_inv_omega X, true)] ->
  let run := fun a => do a <- before V a;
    do a <- (if s2r : bool then do a <- f a; shuffle_with_table a bt np else do a <- shuffle_with_table a bt np; f a);
    after V a in
  (forall a r, zlen a = n -> all_in 0 (Q - 1) a -> run a = Ok r -> zlen r = n) ->
  forall j a, 0 <= j < n -> zlen a = n -> (forall i, 0 <= i < n -> at_ a i = if i =? j then 1 else 0) ->
  exists r r2, run a = Ok r
    /\ (forall i, 0 <= i < n -> at_ r i = NTT n omega (at_ a) i mod Q)
    /\ run r = Ok r2
    /\ forall i, 0 <= i < n -> if (i + j) mod n =? 0 then at_ r2 i mod 2 ^ 32 = n else at_ r2 i = 0.
Proof. exact main_certifies_transforms_L. Qed.
Print Assumptions main_certifies_transforms.

Example main_certifies_transforms_ex :
  exists r, (do a <- n_ct_std2rev 16 T16 cube16; shuffle_with_table a bitrev16 BITREV16_NPAIRS) = Ok r
  /\ forall i, 0 <= i < 16 -> at_ r i = NTT 16 (t_omega T16) (at_ cube16) i mod Q.
Proof.
  destruct (main_certifies_transforms ex_rnd ex_clk ex_stk 16 bitrev16 BITREV16_NPAIRS (default_variant 16 T16)
    (default_functions 16 T16)) with (f := n_ct_std2rev 16 T16) (omega := t_omega T16) (s2r := true) (j := 3) (a := cube16) as (r & r2 & E & H & _).
  - split; reflexivity.
  - exact ex_stk_len.
  - split; [discriminate|reflexivity].
  - split; [discriminate|reflexivity].
  - exact ex_run16.
  - right; right; left; reflexivity.
  - exact ex_transform_len.
  - split; [discriminate|reflexivity].
  - reflexivity.
  - exact cube16_at.
  - exists r. split; [|exact H]. cbn [default_variant before after bind] in E.
    destruct (n_ct_std2rev 16 T16 cube16); cbn [bind] in *; [|discriminate].
    destruct (shuffle_with_table _ _ _); [exact E|discriminate].
Qed.

(** C68. When one of the programs returns 0, each tested pair of transforms is a round trip for each of the thousand
    polynomials the test draws for it. *)
Theorem main_certifies_inverses :
  forall rnd clk stk n bt np V X, 0 < n < 2 ^ 31 -> (forall i, 0 <= rnd i < 2 ^ 31) -> (forall p, zlen (stk p) = n) ->
  main rnd clk stk n bt np V X = Ok 0 ->
  forall c f g, In (c, f, g)
    [(0, f_ct_std2rev X, f_intt_ct_rev2std X); (1, f_intt_ct_rev2std X, f_ct_std2rev X);
     (2, f_ct_std2rev X, f_intt_gs_rev2std X); (3, f_intt_gs_rev2std X, f_ct_std2rev X);
     (4, f_gs_std2rev X, f_intt_gs_rev2std X); (5, f_intt_gs_rev2std X, f_gs_std2rev X)] ->
  forall t a, 0 <= t < 1000 -> zlen a = n ->
  (forall i, 0 <= i < n -> at_ a i = rnd ((1000 * c + t) * n + i) mod Q) ->
  exists r, (do b <- before_forward V a; do b <- f b; do b <- between V b; do b <- g b; after_inverse V b) = Ok r
    /\ forall i, 0 <= i < n -> at_ r i = at_ a i.
Proof. exact main_certifies_inverses_L. Qed.
Print Assumptions main_certifies_inverses.

Example main_certifies_inverses_ex :
  main ex_rnd ex_clk ex_stk 16 bitrev16 BITREV16_NPAIRS (default_variant 16 T16) (default_functions 16 T16) = Ok 0
  /\ check_inverse ex_stk 16 (default_variant 16 T16) cube16 (n_ct_std2rev 16 T16) (n_intt_gs_rev2std 16 T16) = Ok tt
  /\ check_inverse ex_stk 16 (default_variant 16 T16) cube16 (n_ct_std2rev 16 T16) (n_intt_gs_std2rev 16 T16) = Err Exited.
Proof. split; [exact ex_run16|]. split; vm_compute; reflexivity. Qed.

(** C68. When one of the programs returns 0, each product under test is right for every pair of powers of X. *)
Theorem main_certifies_products :
  forall rnd clk stk n bt np V X, 0 < n < 2 ^ 31 -> (forall p, zlen (stk p) = n) ->
  main rnd clk stk n bt np V X = Ok 0 ->
  forall f, In f [f_product1 X; f_product2 X; f_product3 X; f_product4 X; f_product5 X] ->
  forall i m a b, 0 <= i < n -> 0 <= m < n -> zlen a = n -> zlen b = n ->
  (forall t, 0 <= t < n -> at_ a t = if t =? i then 1 else 0) -> (forall t, 0 <= t < n -> at_ b t = if t =? m then 1 else 0) ->
  exists h c, f (hset (hset stk 0 a) 1 b) 2 0 1 = Ok h /\ after_product V (h 2) = Ok c
    /\ forall t, 0 <= t < n -> at_ c t = negacyclic n (at_ a) (at_ b) t mod Q.
Proof. exact main_certifies_products_L. Qed.
Print Assumptions main_certifies_products.

Example main_certifies_products_ex :
  exists h c, ntt_product1 16 T16 (hset (hset ex_stk 0 cube16) 1 cube16) 2 0 1 = Ok h /\ Ok (h 2) = Ok c
  /\ forall t, 0 <= t < 16 -> at_ c t = negacyclic 16 (at_ cube16) (at_ cube16) t mod Q.
Proof.
  apply (main_certifies_products ex_rnd ex_clk ex_stk 16 bitrev16 BITREV16_NPAIRS (default_variant 16 T16)
    (default_functions 16 T16)) with (i := 3) (m := 3) (f := ntt_product1 16 T16).
  - split; reflexivity.
  - exact ex_stk_len.
  - exact ex_run16.
  - left. reflexivity.
  - split; [discriminate|reflexivity].
  - split; [discriminate|reflexivity].
  - reflexivity.
  - reflexivity.
  - exact cube16_at.
  - exact cube16_at.
Qed.
