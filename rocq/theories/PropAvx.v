(** The AVX2 versions of the element-wise functions (src/ntt_asm.S).  The model executes the
    routines instruction by instruction on 256-bit registers; loads and stores outside the
    array are errors.  [n] must be a positive multiple of 16 as ntt_asm.h says (for
    [shift_array_asm] it does not say so; see C47). *)

From Coq Require Import ZArith List.
From Verif Require Import CSem Spec Exlib ModelAvx AvxFinal.
From Verif Require ModelRed.
Import ListNotations.
Open Scope Z_scope.

(** C45: reduce_array_asm and the unused variant reduce_array_asm2 *)
Theorem reduce_array_asm_correct :
forall a n, 0 < n < 2 ^ 32 -> n mod 16 = 0 -> n <= zlen a -> all_in (- 2 ^ 31) (2 ^ 31 - 1) a ->
  exists r, reduce_array_asm a n = Ok r /\ reduce_array_asm2 a n = Ok r /\ zlen r = zlen a
    /\ (forall i, 0 <= i < n ->
          eqQ (at_ r i) (3 * at_ a i) /\ -524287 <= at_ r i <= 536573)
    /\ (forall i, n <= i < zlen a -> at_ r i = at_ a i).
Proof. exact reduce_array_asm_correct_L. Qed.
Print Assumptions reduce_array_asm_correct.

Example reduce_array_asm_ex :
  reduce_array_asm [2147483647; -2147483648; 2147479552; -2147479553; 77; 4095; 4096; 4097; -1; -4096;
                    -4097; 12289; 0; 1; 2; 3; 99] 16
  = Ok [-512002; 524288; -524287; 536573; 231; 12285; -1; 2; 12286; 1; 12287; 0; 0; 3; 6; 9; 99].
Proof. vm_compute. reflexivity. Qed.

(** C45: reduce_array_twice_asm and the unused variant reduce_array_twice_asm2 *)
Theorem reduce_array_twice_asm_correct :
forall a n, 0 < n < 2 ^ 32 -> n mod 16 = 0 -> n <= zlen a -> all_in (- 2 ^ 31) (2 ^ 31 - 1) a ->
  exists r, reduce_array_twice_asm a n = Ok r /\ reduce_array_twice_asm2 a n = Ok r /\ zlen r = zlen a
    /\ (forall i, 0 <= i < n ->
          eqQ (at_ r i) (9 * at_ a i) /\ -130 <= at_ r i <= 12413)
    /\ (forall i, n <= i < zlen a -> at_ r i = at_ a i).
Proof. exact reduce_array_twice_asm_correct_L. Qed.
Print Assumptions reduce_array_twice_asm_correct.

Example reduce_array_twice_asm_ex :
  reduce_array_twice_asm [-2147476821; 2147472724; 1000; -1; 0; 5; 5; 5; 5; 5; 5; 5; 5; 5; 5; 4096; 99] 16
  = Ok [-130; 12413; 9000; 12280; 0; 45; 45; 45; 45; 45; 45; 45; 45; 45; 45; 12286; 99].
Proof. vm_compute. reflexivity. Qed.

(** C45: correct_asm *)
Theorem correct_asm_canonical :
forall a n, 0 < n < 2 ^ 32 -> n mod 16 = 0 -> n <= zlen a -> all_in (- Q) (2 * Q - 1) a ->
  exists r, correct_asm a n = Ok r /\ zlen r = zlen a
    /\ (forall i, 0 <= i < n -> at_ r i = at_ a i mod Q)
    /\ (forall i, n <= i < zlen a -> at_ r i = at_ a i).
Proof. exact correct_asm_canonical_L. Qed.
Print Assumptions correct_asm_canonical.

Example correct_asm_ex :
  correct_asm [-12289; -1; 0; 12288; 12289; 24577; 1; 2; 3; 4; 5; 6; 7; 8; 9; -12288; -5] 16
  = Ok [0; 12288; 0; 12288; 0; 12288; 1; 2; 3; 4; 5; 6; 7; 8; 9; 1; -5].
Proof. vm_compute. reflexivity. Qed.

(** C45: shift_array_asm *)
Theorem shift_array_asm_centred :
forall a n, 0 < n < 2 ^ 32 -> n mod 16 = 0 -> n <= zlen a -> all_in 0 (Q - 1) a ->
  exists r, shift_array_asm a n = Ok r /\ zlen r = zlen a
    /\ (forall i, 0 <= i < n -> -6144 <= at_ r i <= 6144 /\ eqQ (at_ r i) (at_ a i))
    /\ (forall i, n <= i < zlen a -> at_ r i = at_ a i).
Proof. exact shift_array_asm_centred_L. Qed.
Print Assumptions shift_array_asm_centred.

Example shift_array_asm_ex :
  shift_array_asm [0; 1; 2; 12288; 6143; 6144; 6145; 6146; 3; 4; 5; 6; 7; 8; 9; 10; 12288] 16
  = Ok [0; 1; 2; -1; 6143; 6144; -6144; -6143; 3; 4; 5; 6; 7; 8; 9; 10; 12288].
Proof. vm_compute. reflexivity. Qed.

(** C45: mul_reduce_array16_asm and the unused variant mul_reduce_array16_asm2, for a table of
    int16 *)
Theorem mul_reduce_array16_asm_correct :
forall a n p, 0 < n < 2 ^ 32 -> n mod 16 = 0 -> n <= zlen a -> n <= zlen p ->
  all_in (- 2 ^ 31) (2 ^ 31 - 1) a -> all_in (- 2 ^ 15) (2 ^ 15 - 1) p ->
  (forall i, 0 <= i < n -> -8796042698752 <= at_ a i * at_ p i <= 2 ^ 43 - 1) ->
  exists r, mul_reduce_array16_asm a n p = Ok r /\ mul_reduce_array16_asm2 a n p = Ok r /\ zlen r = zlen a
    /\ (forall i, 0 <= i < n -> eqQ (at_ r i) (3 * (at_ a i * at_ p i))
          /\ - 2 ^ 31 <= at_ r i < 2 ^ 31
          /\ (0 <= at_ a i <= 12288 -> 0 <= at_ p i <= 12288 -> -36864 <= at_ r i <= 12285)
          /\ (-6144 <= at_ a i <= 6144 -> -6144 <= at_ p i <= 6144 -> -9216 <= at_ r i <= 21499))
    /\ (forall i, n <= i < zlen a -> at_ r i = at_ a i).
Proof. exact mul_reduce_array16_asm_correct_L. Qed.
Print Assumptions mul_reduce_array16_asm_correct.

(** C45: mul_reduce_array_asm, whatever the aliasing between the three arrays *)
Theorem mul_reduce_array_asm_correct :
forall h c n a b, 0 < n < 2 ^ 32 -> n mod 16 = 0 ->
  n <= zlen (h c) -> n <= zlen (h a) -> n <= zlen (h b) ->
  (forall i, 0 <= i < n -> -8796042698752 <= at_ (h a) i * at_ (h b) i <= 2 ^ 43 - 1) ->
  exists h', mul_reduce_array_asm_h h c n a b = Ok h' /\ zlen (h' c) = zlen (h c)
    /\ (forall i, 0 <= i < n -> eqQ (at_ (h' c) i) (3 * (at_ (h a) i * at_ (h b) i))
          /\ - 2 ^ 31 <= at_ (h' c) i < 2 ^ 31
          /\ (0 <= at_ (h a) i <= 12288 -> 0 <= at_ (h b) i <= 12288 ->
              -36864 <= at_ (h' c) i <= 12285)
          /\ (-6144 <= at_ (h a) i <= 6144 -> -6144 <= at_ (h b) i <= 6144 ->
              -9216 <= at_ (h' c) i <= 21499))
    /\ (forall i, n <= i < zlen (h c) -> at_ (h' c) i = at_ (h c) i)
    /\ (forall p, p <> c -> h' p = h p).
Proof. exact mul_reduce_array_asm_correct_L. Qed.
Print Assumptions mul_reduce_array_asm_correct.

(** C45: scalar_mul_reduce_array_asm *)
Theorem scalar_mul_reduce_array_asm_correct :
forall a n c, 0 < n < 2 ^ 32 -> n mod 16 = 0 -> n <= zlen a -> - 2 ^ 31 <= c <= 2 ^ 31 - 1 ->
  (forall i, 0 <= i < n -> -8796042698752 <= at_ a i * c <= 2 ^ 43 - 1) ->
  exists r, scalar_mul_reduce_array_asm a n c = Ok r /\ zlen r = zlen a
    /\ (forall i, 0 <= i < n -> eqQ (at_ r i) (3 * (at_ a i * c))
          /\ - 2 ^ 31 <= at_ r i < 2 ^ 31
          /\ (0 <= at_ a i <= 12288 -> 0 <= c <= 12288 -> -36864 <= at_ r i <= 12285)
          /\ (-6144 <= at_ a i <= 6144 -> -6144 <= c <= 6144 -> -9216 <= at_ r i <= 21499))
    /\ (forall i, n <= i < zlen a -> at_ r i = at_ a i).
Proof. exact scalar_mul_reduce_array_asm_correct_L. Qed.
Print Assumptions scalar_mul_reduce_array_asm_correct.

Example mul_reduce_array_asm_ex :
  (do h <- mul_reduce_array_asm_h ex_heap_asm 0 16 1 2; Ok (h 0))
    = Ok [15359; -9216; 10844; 168; 3; 3; 3; 3; -4096; 3; 3; 3; 3; 3; 3; 12259; 9]
  /\ (do h <- mul_reduce_array_asm_h ex_heap_asm 1 16 1 1; Ok (h 1))
    = Ok [-9216; -9216; 5422; 147; 3; 3; 3; 3; -4096; 3; 3; 3; 3; 3; 3; 12; 7]
  /\ mul_reduce_array16_asm (ex_heap_asm 1) 16 (ex_heap_asm 2)
    = Ok [15359; -9216; 10844; 168; 3; 3; 3; 3; -4096; 3; 3; 3; 3; 3; 3; 12259; 7]
  /\ scalar_mul_reduce_array_asm (ex_heap_asm 1) 16 (-6143)
    = Ok [15359; -3070; 450; 6176; 6149; 6149; 6149; 6149; 6143; 6149; 6149; 6149; 6149; 6149; 6149; 9; 7].
Proof. vm_compute. repeat split. Qed.

(** C46: whenever the C function returns (no undefined behaviour, no failed assertion), the
    AVX2 function returns the same array, bit for bit. *)
Theorem array_asm_equals_c :
forall a n, 0 < n < 2 ^ 32 -> n mod 16 = 0 -> all_in (- 2 ^ 31) (2 ^ 31 - 1) a ->
  (forall r, ModelRed.reduce_array a n = Ok r -> reduce_array_asm a n = Ok r)
  /\ (forall r, ModelRed.reduce_array_twice a n = Ok r -> reduce_array_twice_asm a n = Ok r)
  /\ (forall r, ModelRed.shift_array a n = Ok r -> shift_array_asm a n = Ok r)
  /\ (forall r, (forall i, 0 <= i < n -> - 2 ^ 16 <= at_ a i < 2 ^ 16) ->
        ModelRed.correct a n = Ok r -> correct_asm a n = Ok r)
  /\ (forall c r, - 2 ^ 31 <= c <= 2 ^ 31 - 1 ->
        ModelRed.scalar_mul_reduce_array a n c = Ok r -> scalar_mul_reduce_array_asm a n c = Ok r)
  /\ (forall p r, all_in (- 2 ^ 15) (2 ^ 15 - 1) p ->
        ModelRed.mul_reduce_array16 a n p = Ok r -> mul_reduce_array16_asm a n p = Ok r).
Proof. exact array_asm_equals_c_L. Qed.
Print Assumptions array_asm_equals_c.

(** C46: the same for the three-array product, with any aliasing *)
Theorem mul_reduce_array_asm_equals_c :
forall h c n a b h', 0 < n < 2 ^ 32 -> n mod 16 = 0 ->
  ModelRed.mul_reduce_array_h h c n a b = Ok h' ->
  exists g, mul_reduce_array_asm_h h c n a b = Ok g /\ forall p, g p = h' p.
Proof. exact mul_reduce_array_asm_equals_c_L. Qed.
Print Assumptions mul_reduce_array_asm_equals_c.

Example array_asm_equals_c_ex :
  let a := ex_heap_asm 1 in
  all_in (- 2 ^ 31) (2 ^ 31 - 1) a
  /\ (exists r, ModelRed.reduce_array a 16 = Ok r /\ reduce_array_asm a 16 = Ok r /\ r <> a)
  /\ (exists r, ModelRed.correct a 16 = Ok r /\ correct_asm a 16 = Ok r /\ r <> a)
  /\ (exists h, ModelRed.mul_reduce_array_h ex_heap_asm 0 16 1 2 = Ok h /\ h 0 <> ex_heap_asm 0).
Proof.
  cbv zeta. split; [check_all_in|].
  split; [eexists; split; [vm_compute; reflexivity|split; [vm_compute; reflexivity|discriminate]]|].
  split; [eexists; split; [vm_compute; reflexivity|split; [vm_compute; reflexivity|discriminate]]|].
  eexists. split; [vm_compute; reflexivity|vm_compute; discriminate].
Qed.

(** C46: the restriction on the range of [correct] is needed; one step outside of it the two
    versions differ (C tests bit 16, the vector version compares) *)
Theorem correct_asm_differs_refuted :
exists a, all_in (- 2 ^ 31) (2 ^ 31 - 1) a /\ at_ a 0 = 2 ^ 16 /\
  exists r r', ModelRed.correct a 16 = Ok r /\ correct_asm a 16 = Ok r' /\ r <> r'.
Proof. exact correct_asm_differs_refuted_L. Qed.
Print Assumptions correct_asm_differs_refuted.

(** C47: ntt_asm.h puts no condition on [n] for shift_array_asm, but for n = 8 it accesses the
    array out of bounds, and for n = 0 it changes the first sixteen elements; the C version
    handles both. *)
Theorem shift_array_asm_any_n_refuted :
(exists a, zlen a = 8 /\ shift_array_asm a 8 = Err OutOfBounds
     /\ exists r, ModelRed.shift_array a 8 = Ok r)
  /\ (exists a r, shift_array_asm a 0 = Ok r /\ (forall i, 0 <= i < 16 -> at_ r i <> at_ a i)
     /\ ModelRed.shift_array a 0 = Ok a).
Proof. exact shift_array_asm_any_n_refuted_L. Qed.
Print Assumptions shift_array_asm_any_n_refuted.
