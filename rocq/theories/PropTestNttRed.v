(** Properties C79 and C80: the program src/test_ntt_red.c, its test on 1, X, X^2, ... and its tables. *)

From Coq Require Import ZArith List Lia.
From Verif Require Import CSem Spec ModelTestTables ModelTestNttRed TestNttRedFinal.
From Verif Require ModelRed ModelNtt.
Import ListNotations.
Open Scope Z_scope.

(** C79. test_simple_polys only tries the powers of X, but for the functions of this program it accepts exactly those that
    compute the canonical NTT of every canonical array: for any table of constants in -6144 .. 6144, right or wrong, any of
    the eight transforms, any shuffle that does what bitrev_shuffle does, and whatever its local array contained at first.
    When it does not accept, it calls exit: it never reads or writes out of bounds and never overflows. *)
Theorem basis_test_decides :
  forall k omega p shuffle f W a0, 1 <= k <= 11 -> 0 <= omega < 12289 -> eqQ (omega ^ (2 ^ (k - 1))) (-1) ->
  zlen p = 2 ^ k -> all_in (-6144) 6144 p ->
  (forall a, zlen a = 2 ^ k -> shuffle a = ModelNtt.bitrev_shuffle a (2 ^ k)) ->
  In f [ModelRed.ntt_red_ct_rev2std; ModelRed.ntt_red_gs_rev2std;
        ModelRed.mulntt_red_ct_rev2std; ModelRed.nttmul_red_gs_rev2std] /\ W = rev2std (2 ^ k) shuffle f p
  \/ In f [ModelRed.ntt_red_ct_std2rev; ModelRed.ntt_red_gs_std2rev;
           ModelRed.mulntt_red_ct_std2rev; ModelRed.nttmul_red_gs_std2rev] /\ W = std2rev (2 ^ k) shuffle f p ->
  zlen a0 = 2 ^ k ->
  (test_simple_polys a0 (2 ^ k) W omega = Ok tt
   <-> forall a, zlen a = 2 ^ k -> all_in 0 (Q - 1) a ->
       exists r, W a = Ok r /\ zlen r = 2 ^ k /\ forall i, 0 <= i < 2 ^ k -> at_ r i = NTT (2 ^ k) omega (at_ a) i mod Q)
  /\ (test_simple_polys a0 (2 ^ k) W omega = Ok tt \/ test_simple_polys a0 (2 ^ k) W omega = Err Exited).
Proof. exact basis_test_decides_L. Qed.
Print Assumptions basis_test_decides.

(** n = 4 and omega = 1479.  One wrong constant is found.  The table entries that ntt_red_ct_rev2std does not use may be
    anything, while mulntt_red_ct_rev2std needs them. *)
Example basis_test_decides_ex :
  let p := [0; -4096; -4096; 493] in
  let sh a := ModelNtt.bitrev_shuffle a 4 in
  eqQ (1479 ^ (2 ^ (2 - 1))) (-1)
  /\ test_simple_polys [7; -1; 8; 12345678] 4 (rev2std 4 sh ModelRed.ntt_red_ct_rev2std p) 1479 = Ok tt
  /\ test_simple_polys [7; -1; 8; 12345678] 4 (rev2std 4 sh ModelRed.ntt_red_ct_rev2std [0; -4096; -4096; 494]) 1479
     = Err Exited
  /\ test_simple_polys [7; -1; 8; 12345678] 4 (rev2std 4 sh ModelRed.ntt_red_ct_rev2std [0; 5; 6; 493]) 1479 = Ok tt
  /\ test_simple_polys [7; -1; 8; 12345678] 4 (rev2std 4 sh ModelRed.mulntt_red_ct_rev2std [0; 5; 6; 493]) 1479
     = Err Exited
  /\ test_simple_polys [7; -1; 8; 12345678] 4 (std2rev 4 sh ModelRed.nttmul_red_gs_std2rev p) 1479 = Ok tt
  /\ rev2std 4 sh ModelRed.ntt_red_ct_rev2std p [12288; 5; 0; 77] = Ok [81; 4112; 12206; 8175].
Proof. vm_compute. repeat split. Qed.

(** C80. The permutation tables of src/test_bitrev_tables.c. *)
Theorem test_bitrev_tables_right :
  (forall a, zlen a = 128 -> bitrev_shuffle128 a = ModelNtt.bitrev_shuffle a 128)
  /\ (forall a, zlen a = 256 -> bitrev_shuffle256 a = ModelNtt.bitrev_shuffle a 256)
  /\ (forall a, zlen a = 512 -> bitrev_shuffle512 a = ModelNtt.bitrev_shuffle a 512)
  /\ (forall a, zlen a = 1024 -> bitrev_shuffle1024 a = ModelNtt.bitrev_shuffle a 1024)
  /\ (forall a, zlen a = 2048 -> bitrev_shuffle2048 a = ModelNtt.bitrev_shuffle a 2048).
Proof. exact test_ntt_red_bitrev_L. Qed.
Print Assumptions test_bitrev_tables_right.

Example test_bitrev_tables_right_ex :
  exists r, bitrev_shuffle2048 (map Z.of_nat (seq 0 2048)) = Ok r /\ at_ r 3 = 1536 /\ at_ r 1536 = 3.
Proof. eexists. vm_compute. repeat split. Qed.

(** C80. The 48 tables of src/test_ntt_red_tables.c: the powers of omega, or of psi and omega, divided by 3, in standard or
    in bit-reverse order. *)
Theorem test_ntt_red_tables_right :
  (forall k omega p, In (k, omega, p)
  [(4, 6553, shoup_sred_ntt16_12289); (7, 12208, shoup_sred_ntt128_12289);
   (8, 8595, shoup_sred_ntt256_12289); (9, 10600, shoup_sred_ntt512_12289);
   (10, 8209, shoup_sred_ntt1024_12289); (11, 12269, shoup_sred_ntt2048_12289)] ->
  omega_table k omega 8193 p /\ all_in (-6144) 6144 p)
  /\ (forall k omega p, In (k, omega, p)
  [(4, 6553, rev_shoup_sred_ntt16_12289); (7, 12208, rev_shoup_sred_ntt128_12289);
   (8, 8595, rev_shoup_sred_ntt256_12289); (9, 10600, rev_shoup_sred_ntt512_12289);
   (10, 8209, rev_shoup_sred_ntt1024_12289); (11, 12269, rev_shoup_sred_ntt2048_12289)] ->
  omega_table_rev k omega 8193 p /\ all_in (-6144) 6144 p)
  /\ (forall k psi p, In (k, psi, p)
  [(4, 1212, shoup_sred_scaled_ntt16_12289); (7, 1022, shoup_sred_scaled_ntt128_12289);
   (8, 1002, shoup_sred_scaled_ntt256_12289); (9, 1003, shoup_sred_scaled_ntt512_12289);
   (10, 1014, shoup_sred_scaled_ntt1024_12289); (11, 1016, shoup_sred_scaled_ntt2048_12289)] ->
  mixed_table k psi 8193 p /\ all_in (-6144) 6144 p)
  /\ (forall k psi p, In (k, psi, p)
  [(4, 1212, rev_shoup_sred_scaled_ntt16_12289); (7, 1022, rev_shoup_sred_scaled_ntt128_12289);
   (8, 1002, rev_shoup_sred_scaled_ntt256_12289); (9, 1003, rev_shoup_sred_scaled_ntt512_12289);
   (10, 1014, rev_shoup_sred_scaled_ntt1024_12289); (11, 1016, rev_shoup_sred_scaled_ntt2048_12289)] ->
  mixed_table_rev k psi 8193 p /\ all_in (-6144) 6144 p)
  /\ (forall k omega p, In (k, omega, p)
  [(4, 6553, shoup_red_ntt16_12289); (7, 12208, shoup_red_ntt128_12289);
   (8, 8595, shoup_red_ntt256_12289); (9, 10600, shoup_red_ntt512_12289);
   (10, 8209, shoup_red_ntt1024_12289); (11, 12269, shoup_red_ntt2048_12289)] ->
  omega_table k omega 8193 p /\ all_in 0 12288 p)
  /\ (forall k omega p, In (k, omega, p)
  [(4, 6553, rev_shoup_red_ntt16_12289); (7, 12208, rev_shoup_red_ntt128_12289);
   (8, 8595, rev_shoup_red_ntt256_12289); (9, 10600, rev_shoup_red_ntt512_12289);
   (10, 8209, rev_shoup_red_ntt1024_12289); (11, 12269, rev_shoup_red_ntt2048_12289)] ->
  omega_table_rev k omega 8193 p /\ all_in 0 12288 p)
  /\ (forall k psi p, In (k, psi, p)
  [(4, 1212, shoup_red_scaled_ntt16_12289); (7, 1022, shoup_red_scaled_ntt128_12289);
   (8, 1002, shoup_red_scaled_ntt256_12289); (9, 1003, shoup_red_scaled_ntt512_12289);
   (10, 1014, shoup_red_scaled_ntt1024_12289); (11, 1016, shoup_red_scaled_ntt2048_12289)] ->
  mixed_table k psi 8193 p /\ all_in 0 12288 p)
  /\ (forall k psi p, In (k, psi, p)
  [(4, 1212, rev_shoup_red_scaled_ntt16_12289); (7, 1022, rev_shoup_red_scaled_ntt128_12289);
   (8, 1002, rev_shoup_red_scaled_ntt256_12289); (9, 1003, rev_shoup_red_scaled_ntt512_12289);
   (10, 1014, rev_shoup_red_scaled_ntt1024_12289); (11, 1016, rev_shoup_red_scaled_ntt2048_12289)] ->
  mixed_table_rev k psi 8193 p /\ all_in 0 12288 p).
Proof. exact red_test_tables_L. Qed.
Print Assumptions test_ntt_red_tables_right.

Example test_ntt_red_tables_right_ex :
  at_ shoup_sred_ntt2048_12289 (2 ^ 10 + 1) = -4103 /\ eqQ (3 * -4103) 12269
  /\ at_ rev_shoup_red_scaled_ntt2048_12289 (2 ^ 10 + 1) = 9328 /\ eqQ (3 * 9328) (1016 * 12269 ^ 512).
Proof. vm_compute. repeat split. Qed.

(** C80. The 20 tables of src/test_ntt_tables.c. *)
Theorem test_ntt_tables_right :
  (forall k omega p, In (k, omega, p)
  [(4, 6553, shoup_ntt16_12289); (8, 8595, shoup_ntt256_12289);
   (9, 10600, shoup_ntt512_12289); (10, 8209, shoup_ntt1024_12289)] ->
  omega_table k omega 1 p /\ all_in 0 12288 p)
  /\ (forall k omega p, In (k, omega, p)
  [(4, 6553, rev_shoup_ntt16_12289); (8, 8595, rev_shoup_ntt256_12289);
   (9, 10600, rev_shoup_ntt512_12289); (10, 8209, rev_shoup_ntt1024_12289)] ->
  omega_table_rev k omega 1 p /\ all_in 0 12288 p)
  /\ (forall k psi p, In (k, psi, p)
  [(4, 1212, shoup_scaled_ntt16_12289); (8, 1002, shoup_scaled_ntt256_12289);
   (9, 1003, shoup_scaled_ntt512_12289); (10, 1014, shoup_scaled_ntt1024_12289)] ->
  mixed_table k psi 1 p /\ all_in 0 12288 p)
  /\ (forall k psi p, In (k, psi, p)
  [(4, 1212, rev_shoup_scaled_ntt16_12289); (8, 1002, rev_shoup_scaled_ntt256_12289);
   (9, 1003, rev_shoup_scaled_ntt512_12289); (10, 1014, rev_shoup_scaled_ntt1024_12289)] ->
  mixed_table_rev k psi 1 p /\ all_in 0 12288 p)
  /\ (forall k psi p, In (k, psi, p)
  [(4, 1212, psi_powers_ntt16_12289); (8, 1002, psi_powers_ntt256_12289); (9, 1003, psi_powers_ntt512_12289); (10, 1014, psi_powers_ntt1024_12289)] ->
  zlen p = 2 ^ k /\ forall i, 0 <= i < 2 ^ k -> at_ p i = psi ^ i mod Q).
Proof. exact ntt_test_tables_L. Qed.
Print Assumptions test_ntt_tables_right.

Example test_ntt_tables_right_ex :
  at_ psi_powers_ntt1024_12289 2 = 1014 ^ 2 mod 12289 /\ at_ shoup_ntt1024_12289 513 = 8209
  /\ at_ shoup_scaled_ntt1024_12289 513 = 1014 * 8209 mod 12289.
Proof. vm_compute. repeat split. Qed.

(** C80. All 48 tests of the program pass, whatever its local arrays contained at first. *)
Theorem test_ntt_red_all_pass :
  forall stk, (forall c n, 0 <= n -> zlen (stk c n) = n) ->
  tests16 stk = Ok tt /\ tests128 stk = Ok tt /\ tests256 stk = Ok tt /\ tests512 stk = Ok tt
  /\ tests1024 stk = Ok tt /\ tests2048 stk = Ok tt.
Proof. exact test_ntt_red_tests_pass_L. Qed.
Print Assumptions test_ntt_red_all_pass.

Example test_ntt_red_all_pass_ex :
  let stk (c n : Z) := repeat (c - 5000000) (Z.to_nat n) in
  (forall c n, 0 <= n -> zlen (stk c n) = n) /\ tests16 stk = Ok tt.
Proof.
  split; [|vm_compute; reflexivity]. intros c n Hn. unfold zlen. rewrite repeat_length. apply Z2Nat.id, Hn.
Qed.

(** C80. But then the first measurement, which applies ntt_red_ct_rev2std 102400 times to the same array without a
    reduction, makes an int32_t addition overflow in the twelfth call, so that main has undefined behaviour. *)
Theorem test_ntt_red_program_refuted :
  forall clk stk, (forall c n, 0 <= n -> zlen (stk c n) = n) ->
  main clk stk = Err SignedOverflow.
Proof. exact main_overflows. Qed.
Print Assumptions test_ntt_red_program_refuted.

(** The array after eleven calls *)
Example test_ntt_red_program_refuted_ex :
  speed 16 ModelRed.ntt_red_ct_rev2std shoup_sred_ntt16_12289
    [125829120; 1435915922; -1070805902; 709202179; -389519219; -993236260; -883496252; -711186789; 1325288216;
     705014196; -45236440; 658616529; -411536025; -408436066; -474112826; 427699617] = Err SignedOverflow
  /\ forall c n, 0 <= n -> zlen ((fun (_ n : Z) => repeat 7 (Z.to_nat n)) c n) = n.
Proof.
  split; [vm_compute; reflexivity|]. intros c n Hn. unfold zlen. rewrite repeat_length. apply Z2Nat.id, Hn.
Qed.
