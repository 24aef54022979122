(** The test programs with any tables: what returning 0 says. *)

From Coq Require Import ZArith List Bool Lia.
From Verif Require Import CSem Spec ModelGen ModelNtt ModelNaive ModelProducts ModelAvxProd ModelTests
  CommittedTables ExTables Exlib AvxProdFinal ShuffleFinal TestsFinal TestsSound TestsLin TestsAll TestsAllNaive TestsAllRed TestsAllAsm TestsAllFinal.
Import Spec.
Import ListNotations.
Open Scope Z_scope.

(** C88. test_ntt16.c, test_ntt256.c, test_ntt512.c and test_ntt1024.c, linked with tables of any numbers of 0 .. Q-1: if main
    returns 0, omega and its inverse are primitive n-th roots of unity, the transforms are right on all arrays, and the products
    are right on all pairs of arrays. *)
Theorem default_test_certifies :
  forall rnd clk stk n T bt np,
  (forall p, In p [psi_powers T; scaled_inv_psi_powers T; omega_powers T; omega_powers_rev T; inv_omega_powers T;
      inv_omega_powers_rev T; mixed_powers T; mixed_powers_rev T; inv_mixed_powers T; inv_mixed_powers_rev T] ->
    zlen p = n /\ all_in 0 (Q - 1) p)
  /\ 0 <= t_omega T < Q /\ 0 <= t_inv_omega T < Q /\ 0 <= t_inv_n T < Q ->
  make_bitrev_table n = Ok (Written (np, bt)) -> (forall p, zlen (stk p) = n) ->
  test_ntt_main rnd clk stk n T bt np = Ok 0 ->
  (forall f omega s2r, In (f, omega, s2r)
     [(n_ct_rev2std n T, t_omega T, false); (n_gs_rev2std n T, t_omega T, false);
      (n_ct_std2rev n T, t_omega T, true); (n_gs_std2rev n T, t_omega T, true);
      (n_intt_ct_rev2std n T, t_inv_omega T, false); (n_intt_gs_rev2std n T, t_inv_omega T, false);
      (n_intt_ct_std2rev n T, t_inv_omega T, true); (n_intt_gs_std2rev n T, t_inv_omega T, true)] ->
   eqQ (omega ^ (n / 2)) (-1)
   /\ forall a, zlen a = n -> all_in 0 (Q - 1) a ->
      exists r, (if s2r : bool then do r <- f a; bitrev_shuffle r n else do b <- bitrev_shuffle a n; f b) = Ok r
        /\ zlen r = n /\ forall i, 0 <= i < n -> at_ r i = NTT n omega (at_ a) i mod Q)
  /\ (forall f, In f [ntt_product1 n T; ntt_product2 n T; ntt_product3 n T; ntt_product4 n T; ntt_product5 n T] ->
      forall h c a b, a <> b -> zlen (h c) = n -> zlen (h a) = n -> zlen (h b) = n ->
      all_in 0 (Q - 1) (h a) -> all_in 0 (Q - 1) (h b) ->
      exists h', f h c a b = Ok h' /\ zlen (h' c) = n
        /\ forall t, 0 <= t < n -> at_ (h' c) t = negacyclic n (at_ (h a)) (at_ (h b)) t mod Q).
Proof. exact default_certifies_L. Qed.
Print Assumptions default_test_certifies.

(** The program accepts the tables of size 16, and rejects them with one wrong entry in the last table of product5. *)
Example default_test_certifies_ex :
  test_ntt_main ex_rnd ex_clk ex_stk 16 T16 bitrev16 BITREV16_NPAIRS = Ok 0
  /\ forall rnd clk stk, (forall p, zlen (stk p) = 16) -> test_ntt_main rnd clk stk 16 T16bad bitrev16 BITREV16_NPAIRS <> Ok 0.
Proof.
  split; [exact ex_main16|]. intros rnd clk stk Ls HM.
  destruct (default_test_certifies rnd clk stk 16 T16bad bitrev16 BITREV16_NPAIRS) as [_ H];
    [|exact (proj1 committed_bitrev_tables_L)|exact Ls|exact HM|].
  - split; [|vm_compute; repeat split; discriminate].
    intros p Hp. repeat (destruct Hp as [<-|Hp]; [split; [reflexivity|check_all_in]|]). destruct Hp.
  - destruct (H (ntt_product5 16 T16bad)) with (h := heap57) (c := 2) (a := 0) (b := 1) as (h' & E & _ & V);
      [do 4 right; left; reflexivity|discriminate|reflexivity|reflexivity|reflexivity
      |check_all_in|check_all_in|].
    assert (P : (do h <- ntt_product5 16 T16bad heap57 2 0 1; Ok (h 2))
      = Ok [7085; 0; 7586; 0; 1004; 0; 3146; 0; 8487; 0; 12126; 0; 10237; 0; 7692; 0]) by (vm_compute; reflexivity).
    rewrite E in P. cbn [bind] in P. injection P as P. assert (I : 0 <= 0 < 16) by (split; [discriminate|reflexivity]).
    specialize (V 0 I). rewrite P in V. vm_compute in V. discriminate V.
Qed.

(** C88. The same for test_naive_ntt16.c, test_naive_ntt256.c, test_naive_ntt512.c and test_naive_ntt1024.c; the results are right
    modulo Q and in -(Q-1) .. Q-1. *)
Theorem naive_test_certifies :
  forall rnd clk stk n T bt np,
  (forall p, In p [psi_powers T; scaled_inv_psi_powers T; omega_powers T; omega_powers_rev T; inv_omega_powers T;
      inv_omega_powers_rev T; mixed_powers T; mixed_powers_rev T; inv_mixed_powers T; inv_mixed_powers_rev T] ->
    zlen p = n /\ all_in 0 (Q - 1) p)
  /\ 0 <= t_omega T < Q /\ 0 <= t_inv_omega T < Q /\ 0 <= t_inv_n T < Q ->
  make_bitrev_table n = Ok (Written (np, bt)) -> (forall p, zlen (stk p) = n) ->
  test_naive_ntt_main rnd clk stk n T bt np = Ok 0 ->
  (forall f omega s2r, In (f, omega, s2r)
     [(v_ct_rev2std n T, t_omega T, false); (v_gs_rev2std n T, t_omega T, false);
      (v_ct_std2rev n T, t_omega T, true); (v_gs_std2rev n T, t_omega T, true);
      (v_intt_ct_rev2std n T, t_inv_omega T, false); (v_intt_gs_rev2std n T, t_inv_omega T, false);
      (v_intt_ct_std2rev n T, t_inv_omega T, true); (v_intt_gs_std2rev n T, t_inv_omega T, true)] ->
   eqQ (omega ^ (n / 2)) (-1)
   /\ forall a, zlen a = n -> all_in 0 (Q - 1) a ->
      exists r, (if s2r : bool then do r <- f a; bitrev_shuffle r n else do b <- bitrev_shuffle a n; f b) = Ok r
        /\ zlen r = n /\ all_in (- (Q - 1)) (Q - 1) r /\ forall i, 0 <= i < n -> eqQ (at_ r i) (NTT n omega (at_ a) i))
  /\ (forall f, In f [naive_product1 n T; naive_product2 n T; naive_product3 n T; naive_product4 n T; naive_product5 n T] ->
      forall h c a b, a <> b -> zlen (h c) = n -> zlen (h a) = n -> zlen (h b) = n ->
      all_in 0 (Q - 1) (h a) -> all_in 0 (Q - 1) (h b) ->
      exists h', f h c a b = Ok h' /\ zlen (h' c) = n /\ all_in (- (Q - 1)) (Q - 1) (h' c)
        /\ forall t, 0 <= t < n -> eqQ (at_ (h' c) t) (negacyclic n (at_ (h a)) (at_ (h b)) t)).
Proof. exact naive_certifies_L. Qed.
Print Assumptions naive_test_certifies.

Example naive_test_certifies_ex :
  test_naive_ntt_main ex_rnd ex_clk ex_stk 16 T16 bitrev16 BITREV16_NPAIRS = Ok 0
  /\ forall rnd clk stk, (forall p, zlen (stk p) = 16) -> test_naive_ntt_main rnd clk stk 16 T16bad bitrev16 BITREV16_NPAIRS <> Ok 0.
Proof.
  split; [exact (test_naive_ntt_main_ok_L malloc77 16 1212 T16 BITREV16_NPAIRS bitrev16 ex_rnd ex_clk ex_stk malloc77_len T16_made
    (proj1 committed_bitrev_tables_L) ex_rnd_range ex_stk_len)|]. intros rnd clk stk Ls HM.
  destruct (naive_test_certifies rnd clk stk 16 T16bad bitrev16 BITREV16_NPAIRS) as [_ H];
    [|exact (proj1 committed_bitrev_tables_L)|exact Ls|exact HM|].
  - split; [|vm_compute; repeat split; discriminate].
    intros p Hp. repeat (destruct Hp as [<-|Hp]; [split; [reflexivity|check_all_in]|]). destruct Hp.
  - destruct (H (naive_product5 16 T16bad)) with (h := heap57) (c := 2) (a := 0) (b := 1) as (h' & E & _ & _ & V);
      [do 4 right; left; reflexivity|discriminate|reflexivity|reflexivity|reflexivity
      |check_all_in|check_all_in|].
    assert (P : (do h <- naive_product5 16 T16bad heap57 2 0 1; Ok (h 2))
      = Ok [7085; 0; 7586; 0; 1004; 0; 3146; 0; -3802; 0; -163; 0; -2052; 0; -4597; 0]) by (vm_compute; reflexivity).
    rewrite E in P. cbn [bind] in P. injection P as P. assert (I : 0 <= 0 < 16) by (split; [discriminate|reflexivity]).
    specialize (V 0 I). rewrite P in V. vm_compute in V. discriminate V.
Qed.

(** C88. The same for test_ntt_red16.c, test_ntt_red256.c, test_ntt_red512.c and test_ntt_red1024.c, linked with tables of any numbers
    of -6144 .. 6144: if all tests succeed (main then goes on to its speed measurements), everything is right on all inputs. *)
Theorem red_test_certifies :
  forall shi sh rnd stk k n T bt np r, 1 <= k <= 10 -> n = 2 ^ k ->
  (forall p, In p [red_psi_powers T; red_scaled_inv_psi_powers T; red_omega_powers T; red_omega_powers_rev T; red_inv_omega_powers T;
      red_inv_omega_powers_rev T; red_mixed_powers_rev T; red_inv_mixed_powers_rev T] ->
    zlen p = n /\ all_in (-6144) 6144 p)
  /\ 0 <= r_omega T < Q /\ 0 <= r_inv_omega T < Q /\ 0 <= rescale8 T < Q ->
  make_bitrev_table n = Ok (Written (np, bt)) -> (forall p, zlen (stk p) = n) ->
  tests rnd stk n bt np (red_variant n T shi) (red_functions n T sh) 0 = Ok r ->
  (forall f omega s2r, In (f, omega, s2r)
     [(r_ct_rev2std n T, r_omega T, false); (r_gs_rev2std n T, r_omega T, false);
      (r_ct_std2rev n T, r_omega T, true); (r_gs_std2rev n T, r_omega T, true);
      (r_intt_ct_rev2std n T, r_inv_omega T, false); (r_intt_gs_rev2std n T, r_inv_omega T, false);
      (r_intt_ct_std2rev n T, r_inv_omega T, true); (r_intt_gs_std2rev n T, r_inv_omega T, true)] ->
   eqQ (omega ^ (n / 2)) (-1)
   /\ forall a, zlen a = n -> all_in (-6144) 6144 a ->
      exists r, (if s2r : bool then do r <- f a; bitrev_shuffle r n else do b <- bitrev_shuffle a n; f b) = Ok r
        /\ zlen r = n /\ forall i, 0 <= i < n -> eqQ (at_ r i) (NTT n omega (at_ a) i))
  /\ (forall f, In f [red_product1 sh n T; red_product2 sh n T; red_product3 sh n T; red_product4 sh n T; red_product5 sh n T] ->
      forall h c a b, a <> b -> zlen (h c) = n -> zlen (h a) = n -> zlen (h b) = n ->
      all_in 0 (Q - 1) (h a) -> all_in 0 (Q - 1) (h b) ->
      exists h', f h c a b = Ok h' /\ zlen (h' c) = n
        /\ forall t, 0 <= t < n -> at_ (h' c) t = negacyclic n (at_ (h a)) (at_ (h b)) t mod Q).
Proof. exact red_certifies_L. Qed.
Print Assumptions red_test_certifies.

Example red_test_certifies_ex :
  (exists r, tests ex_rnd ex_stk 16 bitrev16 BITREV16_NPAIRS (red_variant 16 R16 true) (red_functions 16 R16 true) 0 = Ok r)
  /\ forall rnd stk r, (forall p, zlen (stk p) = 16) ->
     tests rnd stk 16 bitrev16 BITREV16_NPAIRS (red_variant 16 R16bad true) (red_functions 16 R16bad true) 0 <> Ok r.
Proof.
  split; [exact (test_ntt_red_tests_ok_L malloc77 16 1212 R16 BITREV16_NPAIRS bitrev16 ex_rnd ex_stk true true malloc77_len R16_made
    ltac:(discriminate) (proj1 committed_bitrev_tables_L) ex_rnd_range ex_stk_len)|]. intros rnd stk r Ls HM.
  destruct (red_test_certifies true true rnd stk 4 16 R16bad bitrev16 BITREV16_NPAIRS r) as [_ H];
    [lia|reflexivity| |exact (proj1 committed_bitrev_tables_L)|exact Ls|exact HM|].
  - split; [|vm_compute; repeat split; discriminate].
    intros p Hp. repeat (destruct Hp as [<-|Hp]; [split; [reflexivity|check_all_in]|]). destruct Hp.
  - destruct (H (red_product5 true 16 R16bad)) with (h := heap57) (c := 2) (a := 0) (b := 1) as (h' & E & _ & V);
      [do 4 right; left; reflexivity|discriminate|reflexivity|reflexivity|reflexivity
      |check_all_in|check_all_in|].
    assert (P : (do h <- red_product5 true 16 R16bad heap57 2 0 1; Ok (h 2))
      = Ok [6363; 0; 6107; 0; 7557; 0; 10289; 0; 9792; 0; 12127; 0; 6103; 0; 3649; 0]) by (vm_compute; reflexivity).
    rewrite E in P. cbn [bind] in P. injection P as P. assert (I : 0 <= 0 < 16) by (split; [discriminate|reflexivity]).
    specialize (V 0 I). rewrite P in V. vm_compute in V. discriminate V.
Qed.

(** C88. The same for test_ntt_red_asm16.c, test_ntt_red_asm256.c and test_ntt_red_asm512.c on a processor with AVX2.  The entries for
    the power 0 (at the powers of two) are taken to be right: the assembly code does not multiply by them. *)
Theorem asm_test_certifies :
  forall shi sh rnd clk stk k n T bt np, 4 <= k <= 10 -> n = 2 ^ k -> 
  (forall p, In p [red_psi_powers T; red_scaled_inv_psi_powers T; red_omega_powers T; red_omega_powers_rev T; red_inv_omega_powers T;
      red_inv_omega_powers_rev T; red_mixed_powers_rev T; red_inv_mixed_powers_rev T] ->
    zlen p = n /\ all_in (-6144) 6144 p)
  /\ 0 <= r_omega T < Q /\ 0 <= r_inv_omega T < Q /\ 0 <= rescale8 T < Q ->
  (forall p, In p [red_omega_powers T; red_omega_powers_rev T; red_inv_omega_powers T; red_inv_omega_powers_rev T] ->
    forall c, 0 <= c < k -> at_ p (2 ^ c) = -4096) ->
  make_bitrev_table n = Ok (Written (np, bt)) ->
  (forall p, zlen (stk p) = n) -> test_ntt_red_asm_main true shi sh rnd clk stk n T bt np = Ok 0 ->
  (forall f omega s2r, In (f, omega, s2r)
     [(x_ct_rev2std n T, r_omega T, false); (x_gs_rev2std n T, r_omega T, false);
      (x_ct_std2rev n T, r_omega T, true); (x_gs_std2rev n T, r_omega T, true);
      (x_intt_ct_rev2std n T, r_inv_omega T, false); (x_intt_gs_rev2std n T, r_inv_omega T, false);
      (x_intt_ct_std2rev n T, r_inv_omega T, true); (x_intt_gs_std2rev n T, r_inv_omega T, true)] ->
   eqQ (omega ^ (n / 2)) (-1)
   /\ forall a, zlen a = n -> all_in (-6144) 6144 a ->
      exists r, (if s2r : bool then do r <- f a; bitrev_shuffle r n else do b <- bitrev_shuffle a n; f b) = Ok r
        /\ zlen r = n /\ forall i, 0 <= i < n -> eqQ (at_ r i) (NTT n omega (at_ a) i))
  /\ (forall f, In f [red_product1_asm sh n T; red_product2_asm sh n T; red_product3_asm sh n T; red_product4_asm sh n T; red_product5_asm sh n T] ->
      forall h c a b, a <> b -> zlen (h c) = n -> zlen (h a) = n -> zlen (h b) = n ->
      all_in 0 (Q - 1) (h a) -> all_in 0 (Q - 1) (h b) ->
      exists h', f h c a b = Ok h' /\ zlen (h' c) = n
        /\ forall t, 0 <= t < n -> at_ (h' c) t = negacyclic n (at_ (h a)) (at_ (h b)) t mod Q).
Proof. exact asm_main_certifies_L. Qed.
Print Assumptions asm_test_certifies.

Example asm_test_certifies_ex :
  test_ntt_red_asm_main true true true ex_rnd ex_clk ex_stk 16 R16 bitrev16 BITREV16_NPAIRS = Ok 0
  /\ forall rnd clk stk, (forall p, zlen (stk p) = 16) ->
     test_ntt_red_asm_main true true true rnd clk stk 16 R16bad bitrev16 BITREV16_NPAIRS <> Ok 0.
Proof.
  split; [exact (test_ntt_red_asm_main_ok_L malloc77 16 1212 R16 BITREV16_NPAIRS bitrev16 ex_rnd ex_clk ex_stk true true true
    malloc77_len R16_made le16 (proj1 committed_bitrev_tables_L) ex_rnd_range ex_stk_len)|]. intros rnd clk stk Ls HM.
  destruct (asm_test_certifies true true rnd clk stk 4 16 R16bad bitrev16 BITREV16_NPAIRS) as [_ H];
    [lia|reflexivity| | |exact (proj1 committed_bitrev_tables_L)|exact Ls|exact HM|].
  - split; [|vm_compute; repeat split; discriminate].
    intros p Hp. repeat (destruct Hp as [<-|Hp]; [split; [reflexivity|check_all_in]|]). destruct Hp.
  - intros p Hp c Hc. assert (C : c = 0 \/ c = 1 \/ c = 2 \/ c = 3) by lia.
    repeat (destruct Hp as [<-|Hp]; [destruct C as [->|[->|[->| ->]]]; vm_compute; reflexivity|]). destruct Hp.
  - destruct (H (red_product5_asm true 16 R16bad)) with (h := heap57) (c := 2) (a := 0) (b := 1) as (h' & E & _ & V);
      [do 4 right; left; reflexivity|discriminate|reflexivity|reflexivity|reflexivity|check_all_in|check_all_in|].
    assert (P : (do h <- red_product5_asm true 16 R16bad heap57 2 0 1; Ok (h 2))
      = Ok [6363; 0; 6107; 0; 7557; 0; 10289; 0; 9792; 0; 12127; 0; 6103; 0; 3649; 0]) by (vm_compute; reflexivity).
    rewrite E in P. cbn [bind] in P. injection P as P. assert (I : 0 <= 0 < 16) by (split; [discriminate|reflexivity]).
    specialize (V 0 I). rewrite P in V. vm_compute in V. discriminate V.
Qed.
