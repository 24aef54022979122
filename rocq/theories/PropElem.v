(** C01-C10: the element-wise functions of src/ntt_red.c and src/ntt.c.
    Every theorem is for arrays of any length [n] below 2^32, possibly longer
    than [n]; elements past [n] are not touched.  [= Ok r] says that the run
    ends normally: no access out of bounds, no signed overflow, no failed
    assertion. *)

From Coq Require Import ZArith List.
From Verif Require Import CSem Spec Exlib ElemFinal.
From Verif Require ModelNtt ModelRed.
Import ListNotations.
Open Scope Z_scope.

(** C01 *)
Theorem reduce_array_correct :
  forall a n, 0 <= n < 2 ^ 32 -> n <= zlen a -> all_in (- 2 ^ 31) (2 ^ 31 - 1) a ->
  exists r, ModelRed.reduce_array a n = Ok r /\ zlen r = zlen a
    /\ (forall i, 0 <= i < n ->
          eqQ (at_ r i) (3 * at_ a i) /\ -524287 <= at_ r i <= 536573)
    /\ (forall i, n <= i < zlen a -> at_ r i = at_ a i).
Proof. exact reduce_array_correct_L. Qed.
Print Assumptions reduce_array_correct.

(** Both ends of the interval are attained. *)
Example reduce_array_ex :
  all_in (- 2 ^ 31) (2 ^ 31 - 1) [2147483647; -2147483648; 2147479552; -2147479553; 77]
  /\ ModelRed.reduce_array [2147483647; -2147483648; 2147479552; -2147479553; 77] 4
     = Ok [-512002; 524288; -524287; 536573; 77].
Proof.
  split; [check_all_in | vm_compute; reflexivity].
Qed.

(** C02 *)
Theorem reduce_array_twice_correct :
  forall a n, 0 <= n < 2 ^ 32 -> n <= zlen a -> all_in (- 2 ^ 31) (2 ^ 31 - 1) a ->
  exists r, ModelRed.reduce_array_twice a n = Ok r /\ zlen r = zlen a
    /\ (forall i, 0 <= i < n ->
          eqQ (at_ r i) (9 * at_ a i) /\ -130 <= at_ r i <= 12413)
    /\ (forall i, n <= i < zlen a -> at_ r i = at_ a i).
Proof. exact reduce_array_twice_correct_L. Qed.
Print Assumptions reduce_array_twice_correct.

(** C02, both ends are attained *)
Theorem reduce_array_twice_tight :
  exists x y, - 2 ^ 31 <= x < 2 ^ 31 /\ - 2 ^ 31 <= y < 2 ^ 31
    /\ ModelRed.reduce_array_twice [x; y] 2 = Ok [-130; 12413].
Proof. exact reduce_array_twice_tight_L. Qed.
Print Assumptions reduce_array_twice_tight.

(** C03 *)
Theorem correct_canonical :
  forall a n, 0 <= n < 2 ^ 32 -> n <= zlen a -> all_in (- Q) (2 * Q - 1) a ->
  exists r, ModelRed.correct a n = Ok r /\ zlen r = zlen a
    /\ (forall i, 0 <= i < n -> at_ r i = at_ a i mod Q)
    /\ (forall i, n <= i < zlen a -> at_ r i = at_ a i).
Proof. exact correct_canonical_L. Qed.
Print Assumptions correct_canonical.

Example correct_ex : all_in (- Q) (2 * Q - 1) [-12289; -1; 0; 12288; 12289; 24577]
  /\ ModelRed.correct [-12289; -1; 0; 12288; 12289; 24577] 6 = Ok [0; 12288; 0; 12288; 0; 12288].
Proof.
  split; [check_all_in | vm_compute; reflexivity].
Qed.

(** C03, composition *)
Theorem reduce_twice_correct_canonical :
  forall a n, 0 <= n < 2 ^ 32 -> n <= zlen a -> all_in (- 2 ^ 31) (2 ^ 31 - 1) a ->
  exists r, (do b <- ModelRed.reduce_array_twice a n; ModelRed.correct b n) = Ok r
    /\ zlen r = zlen a
    /\ (forall i, 0 <= i < n -> at_ r i = (9 * at_ a i) mod Q)
    /\ (forall i, n <= i < zlen a -> at_ r i = at_ a i).
Proof. exact reduce_twice_correct_canonical_L. Qed.
Print Assumptions reduce_twice_correct_canonical.

Example reduce_twice_correct_ex : all_in (- 2 ^ 31) (2 ^ 31 - 1) [-2147476821; 2147472724; 1000; -1]
  /\ (do b <- ModelRed.reduce_array_twice [-2147476821; 2147472724; 1000; -1] 4;
      ModelRed.correct b 4) = Ok [12159; 124; 9000; 12280].
Proof. split; [check_all_in | vm_compute; reflexivity]. Qed.

(** C04 *)
Theorem normalize_canonical :
  forall a n, 0 <= n < 2 ^ 32 -> n <= zlen a -> all_in (- 2 ^ 31) (2 ^ 31 - 1) a ->
  exists r, ModelRed.normalize a n = Ok r /\ zlen r = zlen a
    /\ (forall i, 0 <= i < n -> at_ r i = at_ a i mod Q)
    /\ (forall i, n <= i < zlen a -> at_ r i = at_ a i).
Proof. exact normalize_canonical_L. Qed.
Print Assumptions normalize_canonical.

(** C04 *)
Theorem normalize_inv3_canonical :
  forall a n, 0 <= n < 2 ^ 32 -> n <= zlen a -> all_in (- 2 ^ 31) (2 ^ 31 - 1) a ->
  exists r, ModelRed.normalize_inv3 a n = Ok r /\ zlen r = zlen a
    /\ (forall i, 0 <= i < n -> 0 <= at_ r i < Q /\ eqQ (3 * at_ r i) (at_ a i))
    /\ (forall i, n <= i < zlen a -> at_ r i = at_ a i).
Proof. exact normalize_inv3_canonical_L. Qed.
Print Assumptions normalize_inv3_canonical.

Example normalize_ex :
  ModelRed.normalize [2147483647; -2147483648; -1; 0; 12289; 77] 5 = Ok [5475; 6813; 12288; 0; 0; 77]
  /\ ModelRed.normalize_inv3 [2147483647; -2147483648; -1; 0; 12289; 3] 6
     = Ok [1825; 2271; 4096; 0; 0; 1].
Proof. vm_compute. split; reflexivity. Qed.

(** C05 *)
Theorem shift_array_centred :
  forall a n, 0 <= n < 2 ^ 32 -> n <= zlen a -> all_in 0 (Q - 1) a ->
  exists r, ModelRed.shift_array a n = Ok r /\ zlen r = zlen a
    /\ (forall i, 0 <= i < n -> -6144 <= at_ r i <= 6144 /\ eqQ (at_ r i) (at_ a i))
    /\ (forall i, n <= i < zlen a -> at_ r i = at_ a i).
Proof. exact shift_array_centred_L. Qed.
Print Assumptions shift_array_centred.

Example shift_array_ex :
  ModelRed.shift_array [0; 1; 6144; 6145; 12288] 5 = Ok [0; 1; 6144; -6144; -1].
Proof. vm_compute. reflexivity. Qed.

(** C06: [mul_reduce_array16] *)
Theorem mul_reduce_array16_correct :
  forall a n p, 0 <= n < 2 ^ 32 -> n <= zlen a -> n <= zlen p ->
  (forall i, 0 <= i < n -> -8796042698752 <= at_ a i * at_ p i <= 2 ^ 43 - 1) ->
  exists r, ModelRed.mul_reduce_array16 a n p = Ok r /\ zlen r = zlen a
    /\ (forall i, 0 <= i < n -> eqQ (at_ r i) (3 * (at_ a i * at_ p i))
          /\ - 2 ^ 31 <= at_ r i < 2 ^ 31
          /\ (0 <= at_ a i <= 12288 -> 0 <= at_ p i <= 12288 -> -36864 <= at_ r i <= 12285)
          /\ (-6144 <= at_ a i <= 6144 -> -6144 <= at_ p i <= 6144 -> -9216 <= at_ r i <= 21499))
    /\ (forall i, n <= i < zlen a -> at_ r i = at_ a i).
Proof. exact mul_reduce_array16_correct_L. Qed.
Print Assumptions mul_reduce_array16_correct.

(** C06: [mul_reduce_array], whatever the aliasing between the three arrays *)
Theorem mul_reduce_array_correct :
  forall h c n a b, 0 <= n < 2 ^ 32 -> n <= zlen (h c) -> n <= zlen (h a) -> n <= zlen (h b) ->
  (forall i, 0 <= i < n -> -8796042698752 <= at_ (h a) i * at_ (h b) i <= 2 ^ 43 - 1) ->
  exists h', ModelRed.mul_reduce_array_h h c n a b = Ok h' /\ zlen (h' c) = zlen (h c)
    /\ (forall i, 0 <= i < n -> eqQ (at_ (h' c) i) (3 * (at_ (h a) i * at_ (h b) i))
          /\ - 2 ^ 31 <= at_ (h' c) i < 2 ^ 31
          /\ (0 <= at_ (h a) i <= 12288 -> 0 <= at_ (h b) i <= 12288 ->
              -36864 <= at_ (h' c) i <= 12285)
          /\ (-6144 <= at_ (h a) i <= 6144 -> -6144 <= at_ (h b) i <= 6144 ->
              -9216 <= at_ (h' c) i <= 21499))
    /\ (forall i, n <= i < zlen (h c) -> at_ (h' c) i = at_ (h c) i)
    /\ (forall p, p <> c -> h' p = h p).
Proof. exact mul_reduce_array_correct_L. Qed.
Print Assumptions mul_reduce_array_correct.

(** C06: [scalar_mul_reduce_array] *)
Theorem scalar_mul_reduce_array_correct :
  forall a n c, 0 <= n < 2 ^ 32 -> n <= zlen a ->
  (forall i, 0 <= i < n -> -8796042698752 <= at_ a i * c <= 2 ^ 43 - 1) ->
  exists r, ModelRed.scalar_mul_reduce_array a n c = Ok r /\ zlen r = zlen a
    /\ (forall i, 0 <= i < n -> eqQ (at_ r i) (3 * (at_ a i * c))
          /\ - 2 ^ 31 <= at_ r i < 2 ^ 31
          /\ (0 <= at_ a i <= 12288 -> 0 <= c <= 12288 -> -36864 <= at_ r i <= 12285)
          /\ (-6144 <= at_ a i <= 6144 -> -6144 <= c <= 6144 -> -9216 <= at_ r i <= 21499))
    /\ (forall i, n <= i < zlen a -> at_ r i = at_ a i).
Proof. exact scalar_mul_reduce_array_correct_L. Qed.
Print Assumptions scalar_mul_reduce_array_correct.

(** The extreme products are reached with 32-bit operands, and the documented
    element bounds are attained up to the parity of the factors. *)
Example mul_reduce_array16_ex :
  -2147471362 * 4096 = -8796042698752 /\ 4188889 * 2099863 = 2 ^ 43 - 1 /\
  ModelRed.mul_reduce_array16 [-2147471362; 12288; -6144; 5] 3 [4096; 12288; 6144]
    = Ok [2147471362; -36864; 9216; 5].
Proof. vm_compute. auto. Qed.

Example mul_reduce_array_ex :
  (do h <- ModelRed.mul_reduce_array_h ex_heap 0 3 1 2; Ok (h 0, h 1))
    = Ok ([15359; -9216; 10844; 9], [6144; -6144; 100; 7])
  /\ (do h <- ModelRed.mul_reduce_array_h ex_heap 1 3 1 1; Ok (h 0, h 1))
    = Ok ([0; 0; 0; 9], [-9216; -9216; 5422; 7])
  /\ ModelRed.scalar_mul_reduce_array [6144; -6144; 7] 2 (-6143) = Ok [15359; -3070; 7].
Proof. vm_compute. auto. Qed.

(** C06: one below the lower end the exact result 3(z & 4095) - (z >> 12) does
    not fit in 32 bits, and the modelled function stops (its assertion fails;
    without the assertion the subtraction overflows). *)
Theorem mul_reduce_lower_end_tight :
  let z := -8796042698753 in
  3 * Z.land z 4095 - Z.shiftr z 12 > 2 ^ 31 - 1
  /\ (exists x y, - 2 ^ 31 <= x < 2 ^ 31 /\ - 2 ^ 31 <= y < 2 ^ 31 /\ x * y = z
        /\ ModelRed.scalar_mul_reduce_array [x] 1 y = Err AssertFail).
Proof. exact mul_reduce_lower_end_tight_L. Qed.
Print Assumptions mul_reduce_lower_end_tight.

(** C07 is false: the documented (and asserted) range goes up to
    8796093026303, but from 2^43 = 8796093022208 on the result overflows. *)
Theorem mul_reduce_documented_upper_end_refuted :
  exists h c a b, zlen (h a) = 1 /\ zlen (h b) = 1 /\ zlen (h c) = 1
    /\ all_in (- 2 ^ 31) (2 ^ 31 - 1) (h a) /\ all_in (- 2 ^ 31) (2 ^ 31 - 1) (h b)
    /\ -8796042698752 <= at_ (h a) 0 * at_ (h b) 0 <= 8796093026303
    /\ ModelRed.mul_reduce_array_h h c 1 a b = Err SignedOverflow.
Proof. exact mul_reduce_documented_upper_end_refuted_L. Qed.
Print Assumptions mul_reduce_documented_upper_end_refuted.

(** C07: every product between 2^43 and the documented end overflows. *)
Theorem mul_reduce_all_large_products_overflow :
  forall x y, 2 ^ 43 <= x * y <= 8796093026303 ->
  ModelRed.mul_reduce_array16 [x] 1 [y] = Err SignedOverflow.
Proof. exact mul_reduce_all_large_products_overflow_L. Qed.
Print Assumptions mul_reduce_all_large_products_overflow.

(** C08: remainder by multiplication; the bound is exact. *)
Theorem modq_exact :
  (forall x, 0 <= x <= 254259408 -> ModelNtt.modq x = x mod Q)
  /\ ModelNtt.modq 254259409 <> 254259409 mod Q.
Proof. exact modq_exact_L. Qed.
Print Assumptions modq_exact.

Example modq_ex : ModelNtt.modq 12288 = 12288 /\ ModelNtt.modq 12289 = 0 /\ ModelNtt.modq (12288 * 12288) = 1.
Proof. repeat split; vm_compute; reflexivity. Qed.

(** C08: [mul_array16] *)
Theorem mul_array16_exact :
  forall a n p, 0 <= n < 2 ^ 32 -> n <= zlen a -> n <= zlen p ->
  all_in 0 (Q - 1) a -> all_in 0 (Q - 1) p ->
  exists r, ModelNtt.mul_array16 a n p = Ok r /\ zlen r = zlen a
    /\ (forall i, 0 <= i < n -> at_ r i = (at_ a i * at_ p i) mod Q)
    /\ (forall i, n <= i < zlen a -> at_ r i = at_ a i).
Proof. exact mul_array16_exact_L. Qed.
Print Assumptions mul_array16_exact.

(** C08: [mul_array], whatever the aliasing *)
Theorem mul_array_exact :
  forall h c n a b, 0 <= n < 2 ^ 32 -> n <= zlen (h c) -> n <= zlen (h a) -> n <= zlen (h b) ->
  all_in 0 (Q - 1) (h a) -> all_in 0 (Q - 1) (h b) ->
  exists h', ModelNtt.mul_array_h h c n a b = Ok h' /\ zlen (h' c) = zlen (h c)
    /\ (forall i, 0 <= i < n -> at_ (h' c) i = (at_ (h a) i * at_ (h b) i) mod Q)
    /\ (forall i, n <= i < zlen (h c) -> at_ (h' c) i = at_ (h c) i)
    /\ (forall p, p <> c -> h' p = h p).
Proof. exact mul_array_exact_L. Qed.
Print Assumptions mul_array_exact.

(** C08: [scalar_mul_array] *)
Theorem scalar_mul_array_exact :
  forall a n c, 0 <= n < 2 ^ 32 -> n <= zlen a -> all_in 0 (Q - 1) a -> 0 <= c <= Q - 1 ->
  exists r, ModelNtt.scalar_mul_array a n c = Ok r /\ zlen r = zlen a
    /\ (forall i, 0 <= i < n -> at_ r i = (at_ a i * c) mod Q)
    /\ (forall i, n <= i < zlen a -> at_ r i = at_ a i).
Proof. exact scalar_mul_array_exact_L. Qed.
Print Assumptions scalar_mul_array_exact.

Example mul_array16_ex :
  ModelNtt.mul_array16 [12288; 5000; 12288; 1; 99] 4 [12288; 12000; 1; 0] = Ok [1; 5102; 12288; 0; 99].
Proof. vm_compute. reflexivity. Qed.

Example mul_array_ex :
  (do h <- ModelNtt.mul_array_h (fun p => if p =? 1 then [12288; 5000] else [12288; 12000]) 1 2 1 2;
   Ok (h 1, h 2)) = Ok ([1; 5102], [12288; 12000])
  /\ ModelNtt.scalar_mul_array [12288; 5000] 2 12000 = Ok [289; 5102].
Proof. vm_compute. auto. Qed.

(** C09: the table in the comment of src/ntt.c 91-98. *)
Theorem reciprocal_constants :
  forall k K, In (k, K)
    [(41, 178942409); (42, 357884817); (43, 715769634); (44, 1431539267); (45, 2863078533)] ->
  forall x, 0 <= x <= (Q - 1) ^ 2 -> x * K / 2 ^ k = x / Q.
Proof. exact reciprocal_constants_L. Qed.
Print Assumptions reciprocal_constants.

(** The bound matters: each constant is wrong somewhere above. *)
Example reciprocal_constants_ex :
  254259409 * 178942409 / 2 ^ 41 <> 254259409 / Q /\ 878036760 * 357884817 / 2 ^ 42 <> 878036760 / Q.
Proof. vm_compute. split; congruence. Qed.

(** C10 *)
Theorem add_mod_sub_mod_exact :
  forall x y, 0 <= x <= Q - 1 -> 0 <= y <= Q - 1 ->
  ModelNtt.add_mod x y = Ok ((x + y) mod Q) /\ ModelNtt.sub_mod x y = Ok ((x - y) mod Q).
Proof. exact add_mod_sub_mod_exact_L. Qed.
Print Assumptions add_mod_sub_mod_exact.

Example add_mod_ex : ModelNtt.add_mod 12288 12288 = Ok 12287 /\ ModelNtt.sub_mod 0 12288 = Ok 1.
Proof. vm_compute. split; reflexivity. Qed.
