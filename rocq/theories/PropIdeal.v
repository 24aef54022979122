(** Properties C71 and C72: the Longa-Naehrig transforms and products on arbitrary arrays; C67 for the programs that
    call them over and over. *)

From Coq Require Import ZArith List Bool Lia.
From Verif Require Import CSem Spec Exlib ModelGen ModelProducts ExTables ModelTests CommittedTables ProdFinal AvxProdFinal HarnessFinal ShuffleFinal TestsFinal IdealFinal RepeatFinal.
Import ListNotations.
Open Scope Z_scope.

(** C71. Whatever values the array holds, a transform of ntt_red.c with generated tables gives the transform modulo Q, or
    overflows a signed integer, or fails an assertion of mul_red: it never returns a wrong array. *)
Theorem red_transforms_never_wrong :
  forall malloc size psi T, (forall n, 0 <= n -> zlen (malloc n) = n) ->
  make_red_tables malloc size psi = Ok (Written T) ->
  exists k, 1 <= k <= 11 /\ size = 2 ^ k /\
  forall f g, In (f, g)
    [(r_ct_rev2std size T, fun a j => NTT size (psi ^ 2) (fun i => a (bitrev k i)) j);
     (r_gs_rev2std size T, fun a j => NTT size (psi ^ 2) (fun i => a (bitrev k i)) j);
     (r_ct_std2rev size T, fun a j => NTT size (psi ^ 2) a (bitrev k j));
     (r_gs_std2rev size T, fun a j => NTT size (psi ^ 2) a (bitrev k j));
     (r_intt_ct_rev2std size T, fun a j => NTT size (r_inv_psi T ^ 2) (fun i => a (bitrev k i)) j);
     (r_intt_gs_rev2std size T, fun a j => NTT size (r_inv_psi T ^ 2) (fun i => a (bitrev k i)) j);
     (r_intt_ct_std2rev size T, fun a j => NTT size (r_inv_psi T ^ 2) a (bitrev k j));
     (r_intt_gs_std2rev size T, fun a j => NTT size (r_inv_psi T ^ 2) a (bitrev k j));
     (r_mulntt_ct_rev2std size T, fun a j => NTT size (psi ^ 2) (fun i => a (bitrev k i) * psi ^ i) j);
     (r_mulntt_ct_std2rev size T, fun a j => NTT size (psi ^ 2) (fun i => a i * psi ^ i) (bitrev k j));
     (r_inttmul_gs_rev2std size T, fun a j => r_inv_psi T ^ j * NTT size (r_inv_psi T ^ 2) (fun i => a (bitrev k i)) j);
     (r_inttmul_gs_std2rev size T, fun a j =>
        r_inv_psi T ^ (bitrev k j) * NTT size (r_inv_psi T ^ 2) a (bitrev k j))] ->
  forall a, zlen a = size ->
  (exists r, f a = Ok r /\ zlen r = size /\ forall j, 0 <= j < size -> at_ r j mod Q = g (at_ a) j mod Q)
  \/ f a = Err SignedOverflow \/ f a = Err AssertFail.
Proof. exact red_transforms_never_wrong_L. Qed.
Print Assumptions red_transforms_never_wrong.

(** All three cases occur. *)
Example red_transforms_never_wrong_ex :
  make_red_tables malloc77 16 1212 = Ok (Written R16)
  /\ r_ct_rev2std 16 R16 ex_big = Ok
       [70376547; 11951577; -69475568; -4922759; 70489176; 11928824; -69497419; -4932394; 70623459; 11908651; -69524438;
        -4937469; 70510830; 11931404; -69502587; -4927834]
  /\ r_ct_std2rev 16 R16 (repeat 2147483647 16) = Err SignedOverflow
  /\ r_gs_std2rev 16 R16 (repeat 2147483647 8 ++ repeat 0 8) = Err AssertFail.
Proof. split; [exact R16_made|]. repeat split; vm_compute; reflexivity. Qed.

(** C71. Whatever int32_t values the arrays hold, a product gives the canonical product modulo X^n + 1, or overflows a
    signed integer, or fails an assertion. *)
Theorem red_products_never_wrong :
  forall malloc size psi T sh, (forall n, 0 <= n -> zlen (malloc n) = n) ->
  make_red_tables malloc size psi = Ok (Written T) -> size <= 1024 ->
  forall f, In f [red_product1 sh size T; red_product2 sh size T; red_product3 sh size T; red_product4 sh size T; red_product5 sh size T] ->
  forall h c a b, a <> b -> zlen (h a) = size -> zlen (h b) = size -> zlen (h c) = size ->
  all_in (- 2 ^ 31) (2 ^ 31 - 1) (h a) -> all_in (- 2 ^ 31) (2 ^ 31 - 1) (h b) ->
  (exists h', f h c a b = Ok h' /\ zlen (h' c) = size /\ all_in 0 (Q - 1) (h' c)
    /\ (forall i, 0 <= i < size ->
          at_ (h' c) i = negacyclic size (at_ (h a)) (at_ (h b)) i mod Q)
    /\ (forall p, p <> a -> p <> b -> p <> c -> h' p = h p))
  \/ f h c a b = Err SignedOverflow \/ f h c a b = Err AssertFail.
Proof. exact red_products_never_wrong_L. Qed.
Print Assumptions red_products_never_wrong.

Example red_products_never_wrong_ex :
  all_in (- 2 ^ 31) (2 ^ 31 - 1) ex_big
  /\ (forall f, In f [red_product1 true 16 R16; red_product2 false 16 R16; red_product3 true 16 R16; red_product4 false 16 R16; red_product5 true 16 R16] ->
       exists h', f ex_big_heap 3 1 2 = Ok h' /\ h' 3 = ex_big_prod)
  /\ red_product2 true 16 R16 ex_huge_heap 3 1 2 = Err AssertFail
  /\ red_product5 true 16 R16 ex_huge_heap 3 1 2 = Err SignedOverflow.
Proof.
  split; [check_all_in|]. split; [|split; vm_compute; reflexivity].
  intros f [<-|[<-|[<-|[<-|[<-|[]]]]]]; apply res_is_ok; vm_compute; reflexivity.
Qed.

(** C72. ntt_red_ct_rev2std multiplies its first entry and its sum by n exactly, not only modulo Q, in two calls: the first
    entry of the result is the sum of the entries, and their sum is n times the first entry. *)
Theorem ct_rev2std_exact :
  forall malloc size psi T, (forall n, 0 <= n -> zlen (malloc n) = n) ->
  make_red_tables malloc size psi = Ok (Written T) ->
  forall a r, zlen a = size -> r_ct_rev2std size T a = Ok r ->
  at_ r 0 = Sum size (at_ a) /\ Sum size (at_ r) = size * at_ a 0.
Proof. exact ct_rev2std_exact_L. Qed.
Print Assumptions ct_rev2std_exact.

Example ct_rev2std_exact_ex :
  exists r, r_ct_rev2std 16 R16 ex_big = Ok r /\ at_ r 0 = 70376547 /\ Sum 16 (at_ r) = 16 * 2000000.
Proof. eexists. split; [vm_compute; reflexivity|]. split; vm_compute; reflexivity. Qed.

(** C72. So it cannot be called over and over on the same array without a reduction: unless the first entry and the sum
    are 0, one of the first 65 calls overflows or fails an assertion. *)
Theorem repeated_calls_stop :
  forall malloc size psi T, (forall n, 0 <= n -> zlen (malloc n) = n) ->
  make_red_tables malloc size psi = Ok (Written T) ->
  forall a, zlen a = size -> all_in (- 2 ^ 31) (2 ^ 31 - 1) a -> at_ a 0 <> 0 \/ Sum size (at_ a) <> 0 ->
  calls (r_ct_rev2std size T) 65 a = Err SignedOverflow \/ calls (r_ct_rev2std size T) 65 a = Err AssertFail.
Proof. exact repeated_calls_stop_L. Qed.
Print Assumptions repeated_calls_stop.

(** The condition is needed: an array of zeros stays the same. *)
Example repeated_calls_stop_ex :
  Sum 16 (at_ iota16) = 120
  /\ calls (r_ct_rev2std 16 R16) 11 iota16 = Ok eleventh16 /\ at_ eleventh16 0 = 16 ^ 5 * 120
  /\ calls (r_ct_rev2std 16 R16) 65 iota16 = Err SignedOverflow
  /\ calls (r_ct_rev2std 16 R16) 5 (repeat 0 16) = Ok (repeat 0 16).
Proof. repeat split; vm_compute; reflexivity. Qed.

(** C67. The speed tests of test_ntt_red16.c, test_ntt_red256.c, test_ntt_red512.c and test_ntt_red1024.c overflow a signed
    integer or fail an assertion, whatever random() and the cycle counter give. *)
Theorem test_ntt_red_main_refuted :
  forall malloc size psi T m bt rnd clk stk shi sh, (forall n, 0 <= n -> zlen (malloc n) = n) ->
  make_red_tables malloc size psi = Ok (Written T) -> size <= 1024 -> make_bitrev_table size = Ok (Written (m, bt)) ->
  (forall i, 0 <= rnd i < 2 ^ 31) -> (forall p, zlen (stk p) = size) ->
  test_ntt_red_main shi sh rnd clk stk size T bt m = Err SignedOverflow
  \/ test_ntt_red_main shi sh rnd clk stk size T bt m = Err AssertFail.
Proof. exact test_ntt_red_main_refuted_L. Qed.
Print Assumptions test_ntt_red_main_refuted.

Example test_ntt_red_main_refuted_ex :
  exists T, make_red_tables malloc77 1024 1014 = Ok (Written T)
  /\ make_bitrev_table 1024 = Ok (Written (BITREV1024_NPAIRS, bitrev1024))
  /\ (test_ntt_red_main false false ex_rnd ex_clk ex_stk1024 1024 T bitrev1024 BITREV1024_NPAIRS = Err SignedOverflow
      \/ test_ntt_red_main false false ex_rnd ex_clk ex_stk1024 1024 T bitrev1024 BITREV1024_NPAIRS = Err AssertFail).
Proof.
  destruct tables1024_made as [T HT]. exists T. split; [exact HT|].
  assert (HB := proj1 (proj2 (proj2 (proj2 committed_bitrev_tables_L)))). split; [exact HB|].
  exact (test_ntt_red_main_refuted malloc77 1024 1014 T _ _ ex_rnd ex_clk ex_stk1024 false false malloc77_len HT ltac:(discriminate) HB
    ex_rnd_range ex_stk1024_len).
Qed.
