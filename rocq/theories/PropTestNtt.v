(** Properties C81, C82 and C83: linearity of the transforms, and the program src/test_ntt.c. *)

From Coq Require Import ZArith List Lia.
From Verif Require Import CSem Spec Exlib ModelTestTables ModelTestNtt TestNttElem TestNttFinal.
From Verif Require ModelRed ModelNtt ModelTestNttRed.
Import ListNotations.
Open Scope Z_scope.

(** C81. Every function put together from the transforms of src/ntt.c, mul_array16 and bitrev_shuffle ([assembled]) maps
    x a + y b to x f(a) + y f(b) modulo Q, for any tables of constants in 0 .. Q-1, right or wrong. *)
Theorem ntt_functions_linear :
  forall k W x y a b c, 0 <= k <= 31 -> assembled (2 ^ k) W ->
  zlen a = 2 ^ k -> zlen b = 2 ^ k -> zlen c = 2 ^ k ->
  all_in 0 (Q - 1) a -> all_in 0 (Q - 1) b -> all_in 0 (Q - 1) c ->
  (forall i, 0 <= i < 2 ^ k -> eqQ (at_ c i) (x * at_ a i + y * at_ b i)) ->
  exists ra rb rc, W a = Ok ra /\ W b = Ok rb /\ W c = Ok rc
  /\ zlen rc = 2 ^ k /\ all_in 0 (Q - 1) rc
  /\ forall i, 0 <= i < 2 ^ k -> at_ rc i = (x * at_ ra i + y * at_ rb i) mod Q.
Proof. exact ntt_functions_linear_L. Qed.
Print Assumptions ntt_functions_linear.

(** n = 4, tables of arbitrary constants, c = 3 a - 5 b *)
Example ntt_functions_linear_ex :
  let W a := do a <- ModelNtt.mul_array16 a 4 [12288; 2; 77; 5]; ModelNtt.nttmul_gs_std2rev a 4 [9; 100; 12000; 6] in
  W [1; 2; 0; 12288] = Ok [12287; 0; 343; 11211]
  /\ W [12287; 0; 3; 4914] = Ok [225; 11811; 4784; 1818]
  /\ W [(3 * 1 - 5 * 12287) mod Q; 6; -15 mod Q; (3 * 12288 - 5 * 4914) mod Q] = Ok [11158; 2390; 1687; 12254]
  /\ (3 * 11211 - 5 * 1818) mod Q = 12254
  /\ assembled (2 ^ 2) W.
Proof.
  cbv zeta. split; [vm_compute; reflexivity|]. split; [vm_compute; reflexivity|]. split; [vm_compute; reflexivity|].
  split; [vm_compute; reflexivity|].
  apply A_seq; [apply A_mul|apply A_transform].
  - reflexivity.
  - check_all_in.
  - in_list.
  - reflexivity.
  - check_all_in.
Qed.

(** C81. The eight transforms of src/ntt_red.c, for any table of constants in -6144 .. 6144. *)
Theorem ntt_red_functions_linear :
  forall k f p x y a b c, 1 <= k <= 11 -> In f
    ([ModelRed.ntt_red_ct_rev2std; ModelRed.ntt_red_gs_rev2std;
      ModelRed.mulntt_red_ct_rev2std; ModelRed.nttmul_red_gs_rev2std]
     ++ [ModelRed.ntt_red_ct_std2rev; ModelRed.ntt_red_gs_std2rev;
         ModelRed.mulntt_red_ct_std2rev; ModelRed.nttmul_red_gs_std2rev]) ->
  zlen p = 2 ^ k -> all_in (-6144) 6144 p ->
  zlen a = 2 ^ k -> zlen b = 2 ^ k -> zlen c = 2 ^ k ->
  all_in (-6144) 6144 a -> all_in (-6144) 6144 b -> all_in (-6144) 6144 c ->
  (forall i, 0 <= i < 2 ^ k -> eqQ (at_ c i) (x * at_ a i + y * at_ b i)) ->
  exists ra rb rc, f a (2 ^ k) p = Ok ra /\ f b (2 ^ k) p = Ok rb /\ f c (2 ^ k) p = Ok rc /\ zlen rc = 2 ^ k
  /\ forall i, 0 <= i < 2 ^ k -> eqQ (at_ rc i) (x * at_ ra i + y * at_ rb i).
Proof. exact ntt_red_functions_linear_L. Qed.
Print Assumptions ntt_red_functions_linear.

Example ntt_red_functions_linear_ex :
  let f a := ModelRed.nttmul_red_gs_std2rev a 4 [9; 100; -6144; 6] in
  f [1; 2; 0; -5] = Ok [-2; 1200; 6272; 11806]
  /\ f [6144; 0; 3; -4914] = Ok [1233; 270; 17785; 7065]
  /\ f [-6139; 6; -15; -23] = Ok [-6171; 2250; -8664; 12382]
  /\ eqQ (-6139) (3 * 1 - 5 * 6144) /\ eqQ (-23) (3 * -5 - 5 * -4914)
  /\ eqQ (-6171) (3 * -2 - 5 * 1233) /\ eqQ 12382 (3 * 11806 - 5 * 7065).
Proof. vm_compute. repeat split. Qed.

(** C82. test_simple_polys accepts exactly the functions that compute the canonical NTT of every canonical array, among all
    those put together from the functions of src/ntt.c with any tables; if it does not accept, it calls exit. *)
Theorem ntt_basis_test_decides :
  forall k omega W a0, 1 <= k <= 13 -> 0 <= omega < 12289 -> eqQ (omega ^ (2 ^ (k - 1))) (-1) ->
  assembled (2 ^ k) W -> zlen a0 = 2 ^ k ->
  (ModelTestNttRed.test_simple_polys a0 (2 ^ k) W omega = Ok tt
   <-> forall a, zlen a = 2 ^ k -> all_in 0 (Q - 1) a ->
       exists r, W a = Ok r /\ zlen r = 2 ^ k /\ forall i, 0 <= i < 2 ^ k -> at_ r i = NTT (2 ^ k) omega (at_ a) i mod Q)
  /\ (ModelTestNttRed.test_simple_polys a0 (2 ^ k) W omega = Ok tt
      \/ ModelTestNttRed.test_simple_polys a0 (2 ^ k) W omega = Err Exited).
Proof. exact ntt_basis_test_decides_L. Qed.
Print Assumptions ntt_basis_test_decides.

(** n = 4 and omega = 1479: one wrong constant is found, those that ntt_ct_rev2std does not use may be anything *)
Example ntt_basis_test_decides_ex :
  let t p := ModelTestNttRed.test_simple_polys [7; -1; 8; 12345678] 4
    (fun a => do a <- ModelNtt.bitrev_shuffle a 4; ModelNtt.ntt_ct_rev2std a 4 p) 1479 in
  eqQ (1479 ^ (2 ^ (2 - 1))) (-1)
  /\ t [0; 1; 1; 1479] = Ok tt /\ t [0; 1; 1; 1480] = Err Exited /\ t [0; 5; 6; 1479] = Ok tt.
Proof. vm_compute. repeat split. Qed.

(** C82. cross_check accepts exactly the pairs of functions that agree on every canonical array; if it does not accept, it
    calls exit. *)
Theorem cross_check_decides :
  forall k f g a0 b0, 0 <= k <= 31 -> assembled (2 ^ k) f -> assembled (2 ^ k) g -> zlen a0 = 2 ^ k -> zlen b0 = 2 ^ k ->
  (cross_check a0 b0 (2 ^ k) f g = Ok tt <-> forall a, zlen a = 2 ^ k -> all_in 0 (Q - 1) a -> f a = g a)
  /\ (cross_check a0 b0 (2 ^ k) f g = Ok tt \/ cross_check a0 b0 (2 ^ k) f g = Err Exited).
Proof. exact cross_check_decides_L. Qed.
Print Assumptions cross_check_decides.

(** n = 4 and psi = 4043: right tables, then one wrong constant in either of them *)
Example cross_check_decides_ex :
  let f p a := do a <- ModelNtt.bitrev_shuffle a 4; ModelNtt.mulntt_ct_rev2std a 4 p in
  let g q a := do a <- ModelNtt.mul_array16 a 4 q; do a <- ModelNtt.bitrev_shuffle a 4;
               ModelNtt.ntt_ct_rev2std a 4 [0; 1; 1; 1479] in
  let check p q := cross_check [1; 2; 3; 4] [5; 6; 7; 80000] 4 (f p) (g q) in
  check [0; 1479; 4043; 4043 * 1479 mod Q] [1; 4043; 1479; 4043 * 1479 mod Q] = Ok tt
  /\ check [0; 1479; 4043; 4043] [1; 4043; 1479; 4043 * 1479 mod Q] = Err Exited
  /\ check [0; 1479; 4043; 4043 * 1479 mod Q] [1; 4043; 1479; 1] = Err Exited
  /\ f [0; 1479; 4043; 4043 * 1479 mod Q] [1; 2; 0; 12288] = g [1; 4043; 1479; 4043 * 1479 mod Q] [1; 2; 0; 12288].
Proof. vm_compute. repeat split. Qed.

(** C83. The functions that test_ntt.c tests are right: each variant computes the canonical NTT of every canonical array, and
    each transform with multiplication built in agrees with the multiplication and the transform done separately. *)
Theorem test_ntt_functions_right :
  (forall n omega W, In (n, omega, W)
  [(16, 6553, ntt16_v1); (16, 6553, ntt16_v2); (16, 6553, ntt16_v3);
   (16, 6553, ntt16_v4); (16, 6553, ntt16_v5); (16, 6553, ntt16_v6);
   (16, 6553, ntt16_v7); (16, 6553, ntt16_v8); (16, 6553, ntt16_v9);
   (256, 8595, ntt256_v1); (256, 8595, ntt256_v2); (256, 8595, ntt256_v3);
   (256, 8595, ntt256_v4); (256, 8595, ntt256_v5); (512, 10600, ntt512_v1);
   (512, 10600, ntt512_v2); (512, 10600, ntt512_v3); (512, 10600, ntt512_v4);
   (512, 10600, ntt512_v5); (1024, 8209, ntt1024_v1); (1024, 8209, ntt1024_v2);
   (1024, 8209, ntt1024_v3); (1024, 8209, ntt1024_v4); (1024, 8209, ntt1024_v5)] ->
   forall a, zlen a = n -> all_in 0 (Q - 1) a ->
   exists r, W a = Ok r /\ zlen r = n /\ forall i, 0 <= i < n -> at_ r i = NTT n omega (at_ a) i mod Q)
  /\ (forall n f g, In (n, f, g)
  [(16, combined_mulntt16, mul_then_ntt16); (16, combined_mulntt16_rev, mul_then_ntt16_rev);
   (16, combined_nttmul16, ntt_then_mul16); (16, combined_nttmul16_rev, ntt_then_mul16_rev);
   (256, combined_mulntt256, mul_then_ntt256); (256, combined_mulntt256_rev, mul_then_ntt256_rev);
   (256, combined_nttmul256, ntt_then_mul256); (256, combined_nttmul256_rev, ntt_then_mul256_rev);
   (512, combined_mulntt512, mul_then_ntt512); (512, combined_mulntt512_rev, mul_then_ntt512_rev);
   (512, combined_nttmul512, ntt_then_mul512); (512, combined_nttmul512_rev, ntt_then_mul512_rev);
   (1024, combined_mulntt1024, mul_then_ntt1024); (1024, combined_mulntt1024_rev, mul_then_ntt1024_rev);
   (1024, combined_nttmul1024, ntt_then_mul1024); (1024, combined_nttmul1024_rev, ntt_then_mul1024_rev)] ->
   forall a, zlen a = n -> all_in 0 (Q - 1) a -> f a = g a).
Proof. exact test_ntt_functions_right_L. Qed.
Print Assumptions test_ntt_functions_right.

Example test_ntt_functions_right_ex :
  exists r, ntt16_v5 [1; 2; 3; 4; 5; 6; 7; 8; 12288; 0; 0; 0; 0; 0; 0; 9] = Ok r
  /\ at_ r 0 = 44 /\ at_ r 1 = NTT 16 6553 (at_ [1; 2; 3; 4; 5; 6; 7; 8; 12288; 0; 0; 0; 0; 0; 0; 9]) 1 mod Q.
Proof. eexists. vm_compute. repeat split. Qed.

(** C83. Every test of the program passes, every speed measurement is defined, and main returns 0, whatever the cycle counter
    says and whatever the local arrays contained at first. *)
Theorem test_ntt_main_returns :
  forall clk stk, (forall c n, 0 <= n -> zlen (stk c n) = n) -> main clk stk = Ok 0.
Proof. exact main_ok. Qed.
Print Assumptions test_ntt_main_returns.

(** A cycle counter and arrays to which the theorem applies, and one of the tests *)
Example test_ntt_main_returns_ex :
  let clk c := c * c - 7 in
  let stk c n := repeat (c - 123456789) (Z.to_nat n) in
  (forall c n, 0 <= n -> zlen (stk c n) = n) /\ main clk stk = Ok 0
  /\ ModelTestNttRed.test_simple_polys (stk 8 16) 16 ntt16_v9 6553 = Ok tt
  /\ ModelTestNttRed.test_simple_polys (stk 8 16) 16 ntt16_v9 6554 = Err Exited.
Proof.
  cbv zeta.
  assert (H : forall c n, 0 <= n -> zlen (repeat (c - 123456789) (Z.to_nat n)) = n).
  { intros c n Hn. unfold zlen. rewrite repeat_length. lia. }
  split; [exact H|]. split; [exact (test_ntt_main_returns _ _ H)|]. vm_compute. repeat split.
Qed.

