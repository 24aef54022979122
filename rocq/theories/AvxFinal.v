(** Lemmas behind [PropAvx]. *)

From Coq Require Import ZArith List Bool Lia.
From Verif Require Import CSem Spec ModelAvx AvxArrays ElemFinal.
From Verif Require ModelRed.
Import ListNotations.
Open Scope Z_scope.

Lemma m16 n : 0 < n < 2 ^ 32 -> n mod 16 = 0 -> mult16 n.
Proof. change (2 ^ 32) with 4294967296. split; assumption. Qed.
Lemma small_in n a : n <= zlen a -> all_in (- Q) (2 * Q - 1) a -> forall i, 0 <= i < n -> -65536 <= at_ a i <= 65535.
Proof. intros HL H i Hi. assert (X := Loops.all_in_at _ _ _ i H). change Q with 12289 in X. lia. Qed.

Lemma reduce_array_asm_correct_L :
forall a n, 0 < n < 2 ^ 32 -> n mod 16 = 0 -> n <= zlen a -> all_in (- 2 ^ 31) (2 ^ 31 - 1) a ->
  exists r, reduce_array_asm a n = Ok r /\ reduce_array_asm2 a n = Ok r /\ zlen r = zlen a
    /\ (forall i, 0 <= i < n ->
          eqQ (at_ r i) (3 * at_ a i) /\ -524287 <= at_ r i <= 536573)
    /\ (forall i, n <= i < zlen a -> at_ r i = at_ a i).
Proof.
  intros a n Hn H16 HL Ha. destruct (reduce_array_correct_L a n ltac:(lia) HL Ha) as (r & E & X).
  destruct (reduce_array_same a n r (m16 n Hn H16) Ha E) as [E1 E2].
  exists r. split; [exact E1|]. split; [exact E2|exact X].
Qed.

Lemma reduce_array_twice_asm_correct_L :
forall a n, 0 < n < 2 ^ 32 -> n mod 16 = 0 -> n <= zlen a -> all_in (- 2 ^ 31) (2 ^ 31 - 1) a ->
  exists r, reduce_array_twice_asm a n = Ok r /\ reduce_array_twice_asm2 a n = Ok r /\ zlen r = zlen a
    /\ (forall i, 0 <= i < n ->
          eqQ (at_ r i) (9 * at_ a i) /\ -130 <= at_ r i <= 12413)
    /\ (forall i, n <= i < zlen a -> at_ r i = at_ a i).
Proof.
  intros a n Hn H16 HL Ha. destruct (reduce_array_twice_correct_L a n ltac:(lia) HL Ha) as (r & E & X).
  destruct (reduce_array_twice_same a n r (m16 n Hn H16) Ha E) as [E1 E2].
  exists r. split; [exact E1|]. split; [exact E2|exact X].
Qed.

Lemma correct_asm_canonical_L :
forall a n, 0 < n < 2 ^ 32 -> n mod 16 = 0 -> n <= zlen a -> all_in (- Q) (2 * Q - 1) a ->
  exists r, correct_asm a n = Ok r /\ zlen r = zlen a
    /\ (forall i, 0 <= i < n -> at_ r i = at_ a i mod Q)
    /\ (forall i, n <= i < zlen a -> at_ r i = at_ a i).
Proof.
  intros a n Hn H16 HL Ha. destruct (correct_canonical_L a n ltac:(lia) HL Ha) as (r & E & X).
  exists r. split; [|exact X]. exact (correct_same a n r (m16 n Hn H16) (small_in n a HL Ha) E).
Qed.

Lemma shift_array_asm_centred_L :
forall a n, 0 < n < 2 ^ 32 -> n mod 16 = 0 -> n <= zlen a -> all_in 0 (Q - 1) a ->
  exists r, shift_array_asm a n = Ok r /\ zlen r = zlen a
    /\ (forall i, 0 <= i < n -> -6144 <= at_ r i <= 6144 /\ eqQ (at_ r i) (at_ a i))
    /\ (forall i, n <= i < zlen a -> at_ r i = at_ a i).
Proof.
  intros a n Hn H16 HL Ha. destruct (shift_array_centred_L a n ltac:(lia) HL Ha) as (r & E & X).
  exists r. split; [|exact X]. refine (shift_array_same a n r (m16 n Hn H16) _ E).
  apply Loops.all_in_of. intros i Hi. assert (Y := Loops.all_in_at _ _ _ i Ha Hi). change Q with 12289 in Y. lia.
Qed.

Lemma mul_reduce_array16_asm_correct_L :
forall a n p, 0 < n < 2 ^ 32 -> n mod 16 = 0 -> n <= zlen a -> n <= zlen p ->
  all_in (- 2 ^ 31) (2 ^ 31 - 1) a -> all_in (- 2 ^ 15) (2 ^ 15 - 1) p ->
  (forall i, 0 <= i < n -> -8796042698752 <= at_ a i * at_ p i <= 2 ^ 43 - 1) ->
  exists r, mul_reduce_array16_asm a n p = Ok r /\ mul_reduce_array16_asm2 a n p = Ok r /\ zlen r = zlen a
    /\ (forall i, 0 <= i < n -> eqQ (at_ r i) (3 * (at_ a i * at_ p i))
          /\ - 2 ^ 31 <= at_ r i < 2 ^ 31
          /\ (0 <= at_ a i <= 12288 -> 0 <= at_ p i <= 12288 -> -36864 <= at_ r i <= 12285)
          /\ (-6144 <= at_ a i <= 6144 -> -6144 <= at_ p i <= 6144 -> -9216 <= at_ r i <= 21499))
    /\ (forall i, n <= i < zlen a -> at_ r i = at_ a i).
Proof.
  intros a n p Hn H16 HL HP Ha Hp Hz. destruct (mul_reduce_array16_correct_L a n p ltac:(lia) HL HP Hz) as (r & E & X).
  destruct (mul_reduce_array16_same a n p r (m16 n Hn H16) Ha Hp E) as [E1 E2].
  exists r. split; [exact E1|]. split; [exact E2|exact X].
Qed.

Lemma mul_reduce_array_asm_correct_L :
forall h c n a b, 0 < n < 2 ^ 32 -> n mod 16 = 0 ->
  n <= zlen (h c) -> n <= zlen (h a) -> n <= zlen (h b) ->
  (forall i, 0 <= i < n -> -8796042698752 <= at_ (h a) i * at_ (h b) i <= 2 ^ 43 - 1) ->
  exists h', mul_reduce_array_asm_h h c n a b = Ok h' /\ zlen (h' c) = zlen (h c)
    /\ (forall i, 0 <= i < n -> eqQ (at_ (h' c) i) (3 * (at_ (h a) i * at_ (h b) i))
          /\ - 2 ^ 31 <= at_ (h' c) i < 2 ^ 31
          /\ (0 <= at_ (h a) i <= 12288 -> 0 <= at_ (h b) i <= 12288 ->
              -36864 <= at_ (h' c) i <= 12285)
          /\ (-6144 <= at_ (h a) i <= 6144 -> -6144 <= at_ (h b) i <= 6144 ->
              -9216 <= at_ (h' c) i <= 21499))
    /\ (forall i, n <= i < zlen (h c) -> at_ (h' c) i = at_ (h c) i)
    /\ (forall p, p <> c -> h' p = h p).
Proof.
  intros h c n a b Hn H16 HC HA HB Hz.
  destruct (mul_reduce_array_correct_L h c n a b ltac:(lia) HC HA HB Hz) as (h' & E & X).
  destruct (mul_reduce_array_h_same h c n a b h' (m16 n Hn H16) E) as (g & E1 & G).
  exists g. split; [exact E1|]. rewrite (G c). destruct X as (X1 & X2 & X3 & X4).
  split; [exact X1|]. split; [exact X2|]. split; [exact X3|]. intros p Hp. rewrite G. now apply X4.
Qed.

Lemma scalar_mul_reduce_array_asm_correct_L :
forall a n c, 0 < n < 2 ^ 32 -> n mod 16 = 0 -> n <= zlen a -> - 2 ^ 31 <= c <= 2 ^ 31 - 1 ->
  (forall i, 0 <= i < n -> -8796042698752 <= at_ a i * c <= 2 ^ 43 - 1) ->
  exists r, scalar_mul_reduce_array_asm a n c = Ok r /\ zlen r = zlen a
    /\ (forall i, 0 <= i < n -> eqQ (at_ r i) (3 * (at_ a i * c))
          /\ - 2 ^ 31 <= at_ r i < 2 ^ 31
          /\ (0 <= at_ a i <= 12288 -> 0 <= c <= 12288 -> -36864 <= at_ r i <= 12285)
          /\ (-6144 <= at_ a i <= 6144 -> -6144 <= c <= 6144 -> -9216 <= at_ r i <= 21499))
    /\ (forall i, n <= i < zlen a -> at_ r i = at_ a i).
Proof.
  intros a n c Hn H16 HL Hc Hz. destruct (scalar_mul_reduce_array_correct_L a n c ltac:(lia) HL Hz) as (r & E & X).
  exists r. split; [|exact X]. exact (scalar_mul_reduce_array_same a n c r (m16 n Hn H16) Hc E).
Qed.

Lemma array_asm_equals_c_L :
forall a n, 0 < n < 2 ^ 32 -> n mod 16 = 0 -> all_in (- 2 ^ 31) (2 ^ 31 - 1) a ->
  (forall r, ModelRed.reduce_array a n = Ok r -> reduce_array_asm a n = Ok r)
  /\ (forall r, ModelRed.reduce_array_twice a n = Ok r -> reduce_array_twice_asm a n = Ok r)
  /\ (forall r, ModelRed.shift_array a n = Ok r -> shift_array_asm a n = Ok r)
  /\ (forall r, (forall i, 0 <= i < n -> - 2 ^ 16 <= at_ a i < 2 ^ 16) ->
        ModelRed.correct a n = Ok r -> correct_asm a n = Ok r)
  /\ (forall c r, - 2 ^ 31 <= c <= 2 ^ 31 - 1 ->
        ModelRed.scalar_mul_reduce_array a n c = Ok r -> scalar_mul_reduce_array_asm a n c = Ok r)
  /\ (forall p r, all_in (- 2 ^ 15) (2 ^ 15 - 1) p ->
        ModelRed.mul_reduce_array16 a n p = Ok r -> mul_reduce_array16_asm a n p = Ok r).
Proof.
  intros a n Hn H16 Ha. assert (M := m16 n Hn H16). split; [|split; [|split; [|split; [|split]]]].
  - intros r E. exact (proj1 (reduce_array_same a n r M Ha E)).
  - intros r E. exact (proj1 (reduce_array_twice_same a n r M Ha E)).
  - intros r E. exact (shift_array_same a n r M Ha E).
  - intros r Hs E. refine (correct_same a n r M _ E). intros i Hi. specialize (Hs i Hi). change (2 ^ 16) with 65536 in Hs. lia.
  - intros c r Hc E. exact (scalar_mul_reduce_array_same a n c r M Hc E).
  - intros p r Hp E. exact (proj1 (mul_reduce_array16_same a n p r M Ha Hp E)).
Qed.

Lemma mul_reduce_array_asm_equals_c_L :
forall h c n a b h', 0 < n < 2 ^ 32 -> n mod 16 = 0 ->
  ModelRed.mul_reduce_array_h h c n a b = Ok h' ->
  exists g, mul_reduce_array_asm_h h c n a b = Ok g /\ forall p, g p = h' p.
Proof.
  intros h c n a b h' Hn H16 E. exact (mul_reduce_array_h_same h c n a b h' (m16 n Hn H16) E).
Qed.

Lemma correct_asm_differs_refuted_L :
exists a, all_in (- 2 ^ 31) (2 ^ 31 - 1) a /\ at_ a 0 = 2 ^ 16 /\
  exists r r', ModelRed.correct a 16 = Ok r /\ correct_asm a 16 = Ok r' /\ r <> r'.
Proof.
  exists [65536; 0; 0; 0; 0; 0; 0; 0; 0; 0; 0; 0; 0; 0; 0; 0]. split; [|split; [reflexivity|]].
  { apply Loops.all_in_of. intros i Hi. change (zlen _) with 16 in Hi.
    assert (D : i = 0 \/ 1 <= i < 16) by lia. destruct D as [-> | D]; [vm_compute; split; discriminate|].
    replace (at_ _ i) with 0; [lia|]. unfold at_. destruct (Z.to_nat i) as [|m] eqn:Em; [lia|].
    do 16 (destruct m as [|m]; [reflexivity|]). reflexivity. }
  eexists. eexists. split; [vm_compute; reflexivity|]. split; [vm_compute; reflexivity|discriminate].
Qed.

Lemma shift_array_asm_any_n_refuted_L :
(exists a, zlen a = 8 /\ shift_array_asm a 8 = Err OutOfBounds
     /\ exists r, ModelRed.shift_array a 8 = Ok r)
  /\ (exists a r, shift_array_asm a 0 = Ok r /\ (forall i, 0 <= i < 16 -> at_ r i <> at_ a i)
     /\ ModelRed.shift_array a 0 = Ok a).
Proof.
  split.
  - exists [12288; 12288; 12288; 12288; 12288; 12288; 12288; 12288]. split; [reflexivity|].
    split; [vm_compute; reflexivity|]. eexists. vm_compute. reflexivity.
  - exists [12288; 12288; 12288; 12288; 12288; 12288; 12288; 12288; 12288; 12288; 12288; 12288; 12288; 12288; 12288; 12288].
    eexists. split; [vm_compute; reflexivity|]. split; [|reflexivity].
    intros i Hi. unfold at_. rewrite <- (Z2Nat.id i) in Hi by lia. destruct (Z.to_nat i) as [|m]; [discriminate|].
    do 15 (destruct m as [|m]; [discriminate|]). lia.
Qed.

(** Data of the examples in PropAvx. *)
Definition ex_heap_asm : heap := fun p =>
  if p =? 1 then [6144; -6144; 100; 7; 1; 1; 1; 1; 4096; 1; 1; 1; 1; 1; 1; 2; 7]
  else if p =? 2 then [-6143; -6144; 200; 8; 1; 1; 1; 1; 4096; 1; 1; 1; 1; 1; 1; -5; 8]
  else [0; 0; 0; 0; 0; 0; 0; 0; 0; 0; 0; 0; 0; 0; 0; 0; 9].
