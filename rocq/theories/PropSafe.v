(** Property C89: whatever the arrays and tables contain, the functions terminate and stay inside the
    arrays. *)

From Coq Require Import ZArith List Bool Lia.
From Verif Require Import CSem Spec Exlib ExTables ModelGen GenFinal ProdFinal SafeFinal.
From Verif Require ModelNtt ModelNaive ModelRed ModelAvx ModelProducts ModelAvxProd.
Import ListNotations.
Open Scope Z_scope.

(** C89: src/ntt.c and the products of the default implementation.  Whatever integers the arrays and
    tables contain, the functions return after finitely many steps, without access outside the arrays;
    the only failure is an overflow of signed arithmetic. *)
Theorem default_stays_in_bounds :
(forall f, In f
    [ModelNtt.ntt_ct_rev2std;
     ModelNtt.ntt_ct_std2rev;
     ModelNtt.ntt_gs_rev2std;
     ModelNtt.ntt_gs_std2rev;
     ModelNtt.mulntt_ct_rev2std;
     ModelNtt.mulntt_ct_std2rev;
     ModelNtt.nttmul_gs_rev2std;
     ModelNtt.nttmul_gs_std2rev;
     ModelNtt.ntt_ct_rev2std_v1] ->
  forall k a p, 0 <= k <= 31 -> 2 ^ k <= zlen a -> 2 ^ k <= zlen p ->
    (exists r, f a (2 ^ k) p = Ok r /\ zlen r = zlen a) \/ f a (2 ^ k) p = Err SignedOverflow)
  /\ (forall n a p, 0 <= n < 2 ^ 32 -> n <= zlen a -> n <= zlen p ->
    (exists r, ModelNtt.mul_array16 a n p = Ok r /\ zlen r = zlen a) \/ ModelNtt.mul_array16 a n p = Err SignedOverflow)
  /\ (forall n a c, 0 <= n < 2 ^ 32 -> n <= zlen a ->
    (exists r, ModelNtt.scalar_mul_array a n c = Ok r /\ zlen r = zlen a) \/ ModelNtt.scalar_mul_array a n c = Err SignedOverflow)
  /\ (forall n h c a b, 0 <= n < 2 ^ 32 -> n <= zlen (h c) -> n <= zlen (h a) -> n <= zlen (h b) ->
    (exists r, ModelNtt.mul_array_h h c n a b = Ok r /\ forall x, zlen (r x) = zlen (h x)) \/ ModelNtt.mul_array_h h c n a b = Err SignedOverflow)
  /\ (forall k T f, 0 <= k <= 31 -> Forall (fun p => 2 ^ k <= zlen p) [psi_powers T; scaled_inv_psi_powers T; omega_powers T; omega_powers_rev T;
      inv_omega_powers T; inv_omega_powers_rev T; mixed_powers_rev T; inv_mixed_powers_rev T] ->
  In f [ModelProducts.ntt_product1 (2 ^ k) T;
     ModelProducts.ntt_product2 (2 ^ k) T;
     ModelProducts.ntt_product3 (2 ^ k) T;
     ModelProducts.ntt_product4 (2 ^ k) T;
     ModelProducts.ntt_product5 (2 ^ k) T] ->
  forall h c a b, 2 ^ k <= zlen (h c) -> 2 ^ k <= zlen (h a) -> 2 ^ k <= zlen (h b) ->
    (exists r, f h c a b = Ok r /\ forall x, zlen (r x) = zlen (h x)) \/ f h c a b = Err SignedOverflow).
Proof. exact default_stays_in_bounds_L. Qed.
Print Assumptions default_stays_in_bounds.

(** arbitrary contents: a result, or an overflow; one element fewer is too short *)
Example default_stays_in_bounds_ex :
  let a := [2 ^ 30; - 2 ^ 30; 5; 77777] in
  2 ^ 2 <= zlen a
  /\ ModelNtt.ntt_ct_rev2std a 4 [9; 9; 9; 9] = Err SignedOverflow
  /\ ModelNtt.ntt_ct_rev2std [50000; -50000; 5; 77777] 4 [9; 9; 9; 9] = Ok [53206; -8288083; -53206; 8488083]
  /\ ModelNtt.ntt_ct_rev2std [50000; -50000; 5] 4 [9; 9; 9; 9] = Err OutOfBounds
  /\ ModelNtt.ntt_ct_rev2std [50000; -50000; 5; 77777] 4 [9; 9; 9] = Err OutOfBounds
  /\ ModelProducts.ntt_product5 16 T16 (fun _ => repeat (2 ^ 20) 17) 1 2 3 = Err SignedOverflow.
Proof. cbv zeta. repeat split; vm_compute; try reflexivity; discriminate. Qed.

(** C89: src/naive_ntt.c, any modulus [m]; a division by zero happens only when the modulus is zero *)
Theorem naive_stays_in_bounds :
(forall f, In f
    [ModelNaive.ntt_ct_rev2std_naive;
     ModelNaive.ntt_ct_std2rev_naive;
     ModelNaive.ntt_gs_rev2std_naive;
     ModelNaive.ntt_gs_std2rev_naive;
     ModelNaive.mulntt_ct_rev2std_naive;
     ModelNaive.mulntt_ct_std2rev_naive;
     ModelNaive.nttmul_gs_rev2std_naive;
     ModelNaive.nttmul_gs_std2rev_naive] ->
  forall k a p m, 0 <= k <= 31 -> 2 ^ k <= zlen a -> 2 ^ k <= zlen p ->
    (exists r, f a (2 ^ k) p m = Ok r /\ zlen r = zlen a) \/ f a (2 ^ k) p m = Err SignedOverflow \/ m = 0 /\ f a (2 ^ k) p m = Err DivByZero)
  /\ (forall n a p m, 0 <= n < 2 ^ 32 -> n <= zlen a -> n <= zlen p ->
    (exists r, ModelNaive.mul_array16_naive a n p m = Ok r /\ zlen r = zlen a) \/ ModelNaive.mul_array16_naive a n p m = Err SignedOverflow \/ m = 0 /\ ModelNaive.mul_array16_naive a n p m = Err DivByZero)
  /\ (forall n a c m, 0 <= n < 2 ^ 32 -> n <= zlen a ->
    (exists r, ModelNaive.scalar_mul_array_naive a n c m = Ok r /\ zlen r = zlen a) \/ ModelNaive.scalar_mul_array_naive a n c m = Err SignedOverflow \/ m = 0 /\ ModelNaive.scalar_mul_array_naive a n c m = Err DivByZero)
  /\ (forall n h c a b m, 0 <= n < 2 ^ 32 -> n <= zlen (h c) -> n <= zlen (h a) -> n <= zlen (h b) ->
    (exists r, ModelNaive.mul_array_naive_h h c n a b m = Ok r /\ forall x, zlen (r x) = zlen (h x)) \/ ModelNaive.mul_array_naive_h h c n a b m = Err SignedOverflow \/ m = 0 /\ ModelNaive.mul_array_naive_h h c n a b m = Err DivByZero)
  /\ (forall k T f, 0 <= k <= 31 -> Forall (fun p => 2 ^ k <= zlen p) [psi_powers T; scaled_inv_psi_powers T; omega_powers T; omega_powers_rev T;
      inv_omega_powers T; inv_omega_powers_rev T; mixed_powers_rev T; inv_mixed_powers_rev T] ->
  In f [ModelProducts.naive_product1 (2 ^ k) T;
     ModelProducts.naive_product2 (2 ^ k) T;
     ModelProducts.naive_product3 (2 ^ k) T;
     ModelProducts.naive_product4 (2 ^ k) T;
     ModelProducts.naive_product5 (2 ^ k) T] ->
  forall h c a b, 2 ^ k <= zlen (h c) -> 2 ^ k <= zlen (h a) -> 2 ^ k <= zlen (h b) ->
    (exists r, f h c a b = Ok r /\ forall x, zlen (r x) = zlen (h x)) \/ f h c a b = Err SignedOverflow).
Proof. exact naive_stays_in_bounds_L. Qed.
Print Assumptions naive_stays_in_bounds.

Example naive_stays_in_bounds_ex :
  ModelNaive.ntt_gs_std2rev_naive [70000; -1; 5; 2] 4 [9; 9; 9; 9] 0 = Err DivByZero
  /\ ModelNaive.ntt_gs_std2rev_naive [70000; 2 ^ 31 - 1; 5; 2 ^ 31 - 1] 4 [9; 9; 9; 9] 7 = Err SignedOverflow
  /\ ModelNaive.ntt_gs_std2rev_naive [70000; -1; 5; 2] 4 [9; 9; 9; 9] 7 = Ok [6; 4; -4; 1]
  /\ ModelNaive.ntt_gs_std2rev_naive [70000; -1; 5] 4 [9; 9; 9; 9] 7 = Err OutOfBounds.
Proof. repeat split; vm_compute; reflexivity. Qed.

(** C89: src/ntt_red.c; assertions can fail *)
Theorem red_stays_in_bounds :
(forall f, In f
    [ModelRed.ntt_red_ct_rev2std;
     ModelRed.ntt_red_ct_std2rev;
     ModelRed.ntt_red_gs_rev2std;
     ModelRed.ntt_red_gs_std2rev;
     ModelRed.mulntt_red_ct_rev2std;
     ModelRed.mulntt_red_ct_std2rev;
     ModelRed.nttmul_red_gs_rev2std;
     ModelRed.nttmul_red_gs_std2rev] ->
  forall k a p, 0 <= k <= 31 -> 2 ^ k <= zlen a -> 2 ^ k <= zlen p ->
    (exists r, f a (2 ^ k) p = Ok r /\ zlen r = zlen a) \/ f a (2 ^ k) p = Err SignedOverflow \/ f a (2 ^ k) p = Err AssertFail)
  /\ (forall n a p, 0 <= n < 2 ^ 32 -> n <= zlen a -> n <= zlen p ->
    (exists r, ModelRed.mul_reduce_array16 a n p = Ok r /\ zlen r = zlen a) \/ ModelRed.mul_reduce_array16 a n p = Err SignedOverflow \/ ModelRed.mul_reduce_array16 a n p = Err AssertFail)
  /\ (forall n a c, 0 <= n < 2 ^ 32 -> n <= zlen a ->
    (exists r, ModelRed.scalar_mul_reduce_array a n c = Ok r /\ zlen r = zlen a) \/ ModelRed.scalar_mul_reduce_array a n c = Err SignedOverflow \/ ModelRed.scalar_mul_reduce_array a n c = Err AssertFail)
  /\ (forall f, In f [ModelRed.normalize; ModelRed.normalize_inv3; ModelRed.shift_array;
     ModelRed.reduce_array; ModelRed.reduce_array_twice; ModelRed.correct] -> forall n a, 0 <= n < 2 ^ 32 -> n <= zlen a ->
    (exists r, f a n = Ok r /\ zlen r = zlen a) \/ f a n = Err SignedOverflow \/ f a n = Err AssertFail)
  /\ (forall n h c a b, 0 <= n < 2 ^ 32 -> n <= zlen (h c) -> n <= zlen (h a) -> n <= zlen (h b) ->
    (exists r, ModelRed.mul_reduce_array_h h c n a b = Ok r /\ forall x, zlen (r x) = zlen (h x)) \/ ModelRed.mul_reduce_array_h h c n a b = Err SignedOverflow \/ ModelRed.mul_reduce_array_h h c n a b = Err AssertFail)
  /\ (forall k sh T f, 0 <= k <= 31 -> Forall (fun p => 2 ^ k <= zlen p) [red_psi_powers T; red_scaled_inv_psi_powers T; red_scaled_inv_psi_powers_var T; red_omega_powers T;
      red_omega_powers_rev T; red_inv_omega_powers T; red_inv_omega_powers_rev T; red_mixed_powers_rev T; red_inv_mixed_powers_rev T] ->
  In f [ModelProducts.red_product1 sh (2 ^ k) T;
     ModelProducts.red_product2 sh (2 ^ k) T;
     ModelProducts.red_product3 sh (2 ^ k) T;
     ModelProducts.red_product4 sh (2 ^ k) T;
     ModelProducts.red_product5 sh (2 ^ k) T] ->
  forall h c a b, 2 ^ k <= zlen (h c) -> 2 ^ k <= zlen (h a) -> 2 ^ k <= zlen (h b) ->
    (exists r, f h c a b = Ok r /\ forall x, zlen (r x) = zlen (h x)) \/ f h c a b = Err SignedOverflow \/ f h c a b = Err AssertFail).
Proof. exact red_stays_in_bounds_L. Qed.
Print Assumptions red_stays_in_bounds.

Example red_stays_in_bounds_ex :
  ModelRed.ntt_red_ct_std2rev [2 ^ 31 - 1; 2 ^ 31 - 1; 2 ^ 31 - 1; 2 ^ 31 - 1] 4 [1; 2; 3; 4] = Err SignedOverflow
  /\ ModelRed.mul_reduce_array16 [2 ^ 31 - 1; 5] 2 [32767; 32767] = Err AssertFail
  /\ ModelRed.reduce_array [2 ^ 31 - 1; - 2 ^ 31; 7] 2 = Ok [-512002; 524288; 7]
  /\ ModelRed.reduce_array [2 ^ 31 - 1] 2 = Err OutOfBounds
  /\ ModelProducts.red_product1 true 16 R16 (fun _ => repeat (2 ^ 31 - 1) 16) 1 2 3 = Err AssertFail.
Proof. repeat split; vm_compute; reflexivity. Qed.

(** C89: the AVX2 product of arrays and the products that use the AVX2 routines: no failure at all
    (the routines themselves: asm_in_bounds) *)
Theorem asm_products_stay_in_bounds :
(forall n h c a b, 0 < n < 2 ^ 32 -> n mod 16 = 0 -> n <= zlen (h c) -> n <= zlen (h a) -> n <= zlen (h b) ->
    exists r, ModelAvx.mul_reduce_array_asm_h h c n a b = Ok r /\ forall x, zlen (r x) = zlen (h x))
  /\ (forall k sh T f, 4 <= k <= 31 -> Forall (fun p => 2 ^ k <= zlen p) [red_psi_powers T; red_scaled_inv_psi_powers T; red_scaled_inv_psi_powers_var T; red_omega_powers T;
      red_omega_powers_rev T; red_inv_omega_powers T; red_inv_omega_powers_rev T; red_mixed_powers_rev T; red_inv_mixed_powers_rev T] ->
  In f [ModelAvxProd.red_product1_asm sh (2 ^ k) T;
     ModelAvxProd.red_product2_asm sh (2 ^ k) T;
     ModelAvxProd.red_product3_asm sh (2 ^ k) T;
     ModelAvxProd.red_product4_asm sh (2 ^ k) T;
     ModelAvxProd.red_product5_asm sh (2 ^ k) T;
     ModelAvxProd.red1024_product1_asm (2 ^ k) T] ->
  forall h c a b, 2 ^ k <= zlen (h c) -> 2 ^ k <= zlen (h a) -> 2 ^ k <= zlen (h b) ->
    exists r, f h c a b = Ok r /\ forall x, zlen (r x) = zlen (h x)).
Proof. exact asm_products_stay_in_bounds_L. Qed.
Print Assumptions asm_products_stay_in_bounds.

Example asm_products_stay_in_bounds_ex :
  let h := fun x : Z => repeat (2 ^ 31 - 1 - x) 16 in
  Forall (fun p => 2 ^ 4 <= zlen p) [red_psi_powers R16; red_scaled_inv_psi_powers R16; red_scaled_inv_psi_powers_var R16; red_omega_powers R16;
      red_omega_powers_rev R16; red_inv_omega_powers R16; red_inv_omega_powers_rev R16; red_mixed_powers_rev R16; red_inv_mixed_powers_rev R16]
  /\ 2 ^ 4 <= zlen (h 3)
  /\ (exists r, ModelAvxProd.red_product1_asm true 16 R16 h 3 1 2 = Ok r /\ zlen (r 3) = 16)
  /\ (do r <- ModelAvxProd.red_product1_asm true 16 R16 (fun x => repeat (2 ^ 31 - 1 - x) 15) 3 1 2; Ok (r 3)) = Err OutOfBounds.
Proof.
  cbv zeta. split; [repeat constructor; vm_compute; discriminate|]. split; [vm_compute; discriminate|].
  split; [|vm_compute; reflexivity].
  destruct (asm_products_stay_in_bounds) as [_ H].
  destruct (H 4 true R16 (ModelAvxProd.red_product1_asm true (2 ^ 4) R16)) with (h := fun x : Z => repeat (2 ^ 31 - 1 - x) 16) (c := 3) (a := 1) (b := 2) as (r & E & L);
    [lia|repeat constructor; vm_compute; discriminate|left; reflexivity|vm_compute; discriminate..|].
  exists r. split; [exact E|]. rewrite L. reflexivity.
Qed.

(** C89: the bit-reversal shuffle never fails *)
Theorem shuffle_stays_in_bounds :
forall k a, 0 <= k <= 31 -> 2 ^ k <= zlen a ->
    exists r, ModelNtt.bitrev_shuffle a (2 ^ k) = Ok r /\ zlen r = zlen a.
Proof. exact shuffle_stays_in_bounds_L. Qed.
Print Assumptions shuffle_stays_in_bounds.

Example shuffle_stays_in_bounds_ex :
  ModelNtt.bitrev_shuffle [2 ^ 40; 1; 2; 3; 4; 5; 6; 7; 8] 8 = Ok [2 ^ 40; 4; 2; 6; 1; 5; 3; 7; 8]
  /\ ModelNtt.bitrev_shuffle [0; 1; 2; 3; 4; 5] 8 = Err OutOfBounds.
Proof. split; vm_compute; reflexivity. Qed.

