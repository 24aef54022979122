(** Lemmas behind [PropTestNttRed]. *)

From Coq Require Import ZArith List Bool Lia Setoid Morphisms.
From Verif Require Import CSem Spec Loops ModQ Exlib NttElem RedElem ProdFinal ModelGen ModelTests TestsElem TestsRun
  ModelTestTables ModelTestNttRed ShuffleFinal LinRed BasisElem TestNttRedElem TestNttRedRight TabCheck TestAvxElem
  Repeat.
From Verif Require ModelRed ModelNtt.
Import Spec.
Import ListNotations.
Open Scope Z_scope.

(** The test decides *)
Lemma basis_test_decides_L :
  forall k omega p shuffle f W a0, 1 <= k <= 11 -> 0 <= omega < 12289 -> eqQ (omega ^ (2 ^ (k - 1))) (-1) ->
  zlen p = 2 ^ k -> all_in (-6144) 6144 p ->
  (forall a, zlen a = 2 ^ k -> shuffle a = ModelNtt.bitrev_shuffle a (2 ^ k)) ->
  In f r2s_transforms /\ W = rev2std (2 ^ k) shuffle f p \/ In f s2r_transforms /\ W = std2rev (2 ^ k) shuffle f p ->
  zlen a0 = 2 ^ k ->
  (test_simple_polys a0 (2 ^ k) W omega = Ok tt <-> computes_ntt (2 ^ k) omega W)
  /\ (test_simple_polys a0 (2 ^ k) W omega = Ok tt \/ test_simple_polys a0 (2 ^ k) W omega = Err Exited).
Proof.
  intros k omega p shuffle f W a0 Hk Ho Hw Lp Ip Hs HW La.
  assert (L : linear_map (2 ^ k) W).
  { destruct HW as [[Hf ->]|[Hf ->]]; [apply rev2std_linear|apply std2rev_linear]; assumption. }
  split; [split|].
  - apply basis_exhaustive; try assumption. lia.
  - apply basis_pass; try assumption. lia.
  - apply basis_total; try assumption. lia.
Qed.

(** The tables of src/test_bitrev_tables.c *)
Lemma shuffle_agrees size m t : make_bitrev_table size = Ok (Written (m, t)) ->
  forall a, zlen a = size -> ModelNtt.shuffle_with_table a t m = ModelNtt.bitrev_shuffle a size.
Proof.
  intros E a La. destruct (bitrev_table_shuffle_agrees_L size m t E) as (_ & _ & H).
  destruct (H a La) as (r & -> & ->). reflexivity.
Qed.
Lemma bitrev128_made : make_bitrev_table 128 = Ok (Written (BITREV128_NPAIRS, bitrev128_pair)).
Proof. vm_compute. reflexivity. Qed.
Lemma shuffle128_ok a : zlen a = 128 -> bitrev_shuffle128 a = ModelNtt.bitrev_shuffle a 128.
Proof. exact (shuffle_agrees 128 _ _ bitrev128_made a). Qed.
Lemma bitrev256_made : make_bitrev_table 256 = Ok (Written (BITREV256_NPAIRS, bitrev256_pair)).
Proof. vm_compute. reflexivity. Qed.
Lemma shuffle256_ok a : zlen a = 256 -> bitrev_shuffle256 a = ModelNtt.bitrev_shuffle a 256.
Proof. exact (shuffle_agrees 256 _ _ bitrev256_made a). Qed.
Lemma bitrev512_made : make_bitrev_table 512 = Ok (Written (BITREV512_NPAIRS, bitrev512_pair)).
Proof. vm_compute. reflexivity. Qed.
Lemma shuffle512_ok a : zlen a = 512 -> bitrev_shuffle512 a = ModelNtt.bitrev_shuffle a 512.
Proof. exact (shuffle_agrees 512 _ _ bitrev512_made a). Qed.
Lemma bitrev1024_made : make_bitrev_table 1024 = Ok (Written (BITREV1024_NPAIRS, bitrev1024_pair)).
Proof. vm_compute. reflexivity. Qed.
Lemma shuffle1024_ok a : zlen a = 1024 -> bitrev_shuffle1024 a = ModelNtt.bitrev_shuffle a 1024.
Proof. exact (shuffle_agrees 1024 _ _ bitrev1024_made a). Qed.
Lemma bitrev2048_made : make_bitrev_table 2048 = Ok (Written (BITREV2048_NPAIRS, bitrev2048_pair)).
Proof. vm_compute. reflexivity. Qed.
Lemma shuffle2048_ok a : zlen a = 2048 -> bitrev_shuffle2048 a = ModelNtt.bitrev_shuffle a 2048.
Proof. exact (shuffle_agrees 2048 _ _ bitrev2048_made a). Qed.

Lemma sred_omega_table : forall k omega p, In (k, omega, p)
  [(4, 6553, shoup_sred_ntt16_12289); (7, 12208, shoup_sred_ntt128_12289);
   (8, 8595, shoup_sred_ntt256_12289); (9, 10600, shoup_sred_ntt512_12289);
   (10, 8209, shoup_sred_ntt1024_12289); (11, 12269, shoup_sred_ntt2048_12289)] ->
  omega_table k omega 8193 p /\ all_in (-6144) 6144 p.
Proof.
  intros k omega p H. cbn [In] in H.
  destruct H as [E|H]; [injection E as <- <- <-;
    split; [apply (omega_check 4 6553 8193); vm_compute; reflexivity|check_all_in]|].
  destruct H as [E|H]; [injection E as <- <- <-;
    split; [apply (omega_check 7 12208 8193); vm_compute; reflexivity|check_all_in]|].
  destruct H as [E|H]; [injection E as <- <- <-;
    split; [apply (omega_check 8 8595 8193); vm_compute; reflexivity|check_all_in]|].
  destruct H as [E|H]; [injection E as <- <- <-;
    split; [apply (omega_check 9 10600 8193); vm_compute; reflexivity|check_all_in]|].
  destruct H as [E|H]; [injection E as <- <- <-;
    split; [apply (omega_check 10 8209 8193); vm_compute; reflexivity|check_all_in]|].
  destruct H as [E|H]; [injection E as <- <- <-;
    split; [apply (omega_check 11 12269 8193); vm_compute; reflexivity|check_all_in]|].
  destruct H.
Qed.

Lemma sred_omega_table_rev : forall k omega p, In (k, omega, p)
  [(4, 6553, rev_shoup_sred_ntt16_12289); (7, 12208, rev_shoup_sred_ntt128_12289);
   (8, 8595, rev_shoup_sred_ntt256_12289); (9, 10600, rev_shoup_sred_ntt512_12289);
   (10, 8209, rev_shoup_sred_ntt1024_12289); (11, 12269, rev_shoup_sred_ntt2048_12289)] ->
  omega_table_rev k omega 8193 p /\ all_in (-6144) 6144 p.
Proof.
  intros k omega p H. cbn [In] in H.
  destruct H as [E|H]; [injection E as <- <- <-;
    split; [apply (omega_rev_check 4 6553 8193); vm_compute; reflexivity|check_all_in]|].
  destruct H as [E|H]; [injection E as <- <- <-;
    split; [apply (omega_rev_check 7 12208 8193); vm_compute; reflexivity|check_all_in]|].
  destruct H as [E|H]; [injection E as <- <- <-;
    split; [apply (omega_rev_check 8 8595 8193); vm_compute; reflexivity|check_all_in]|].
  destruct H as [E|H]; [injection E as <- <- <-;
    split; [apply (omega_rev_check 9 10600 8193); vm_compute; reflexivity|check_all_in]|].
  destruct H as [E|H]; [injection E as <- <- <-;
    split; [apply (omega_rev_check 10 8209 8193); vm_compute; reflexivity|check_all_in]|].
  destruct H as [E|H]; [injection E as <- <- <-;
    split; [apply (omega_rev_check 11 12269 8193); vm_compute; reflexivity|check_all_in]|].
  destruct H.
Qed.

Lemma sred_mixed_table : forall k psi p, In (k, psi, p)
  [(4, 1212, shoup_sred_scaled_ntt16_12289); (7, 1022, shoup_sred_scaled_ntt128_12289);
   (8, 1002, shoup_sred_scaled_ntt256_12289); (9, 1003, shoup_sred_scaled_ntt512_12289);
   (10, 1014, shoup_sred_scaled_ntt1024_12289); (11, 1016, shoup_sred_scaled_ntt2048_12289)] ->
  mixed_table k psi 8193 p /\ all_in (-6144) 6144 p.
Proof.
  intros k psi p H. cbn [In] in H.
  destruct H as [E|H]; [injection E as <- <- <-;
    split; [apply (mixed_check 4 1212 8193); vm_compute; reflexivity|check_all_in]|].
  destruct H as [E|H]; [injection E as <- <- <-;
    split; [apply (mixed_check 7 1022 8193); vm_compute; reflexivity|check_all_in]|].
  destruct H as [E|H]; [injection E as <- <- <-;
    split; [apply (mixed_check 8 1002 8193); vm_compute; reflexivity|check_all_in]|].
  destruct H as [E|H]; [injection E as <- <- <-;
    split; [apply (mixed_check 9 1003 8193); vm_compute; reflexivity|check_all_in]|].
  destruct H as [E|H]; [injection E as <- <- <-;
    split; [apply (mixed_check 10 1014 8193); vm_compute; reflexivity|check_all_in]|].
  destruct H as [E|H]; [injection E as <- <- <-;
    split; [apply (mixed_check 11 1016 8193); vm_compute; reflexivity|check_all_in]|].
  destruct H.
Qed.

Lemma sred_mixed_table_rev : forall k psi p, In (k, psi, p)
  [(4, 1212, rev_shoup_sred_scaled_ntt16_12289); (7, 1022, rev_shoup_sred_scaled_ntt128_12289);
   (8, 1002, rev_shoup_sred_scaled_ntt256_12289); (9, 1003, rev_shoup_sred_scaled_ntt512_12289);
   (10, 1014, rev_shoup_sred_scaled_ntt1024_12289); (11, 1016, rev_shoup_sred_scaled_ntt2048_12289)] ->
  mixed_table_rev k psi 8193 p /\ all_in (-6144) 6144 p.
Proof.
  intros k psi p H. cbn [In] in H.
  destruct H as [E|H]; [injection E as <- <- <-;
    split; [apply (mixed_rev_check 4 1212 8193); vm_compute; reflexivity|check_all_in]|].
  destruct H as [E|H]; [injection E as <- <- <-;
    split; [apply (mixed_rev_check 7 1022 8193); vm_compute; reflexivity|check_all_in]|].
  destruct H as [E|H]; [injection E as <- <- <-;
    split; [apply (mixed_rev_check 8 1002 8193); vm_compute; reflexivity|check_all_in]|].
  destruct H as [E|H]; [injection E as <- <- <-;
    split; [apply (mixed_rev_check 9 1003 8193); vm_compute; reflexivity|check_all_in]|].
  destruct H as [E|H]; [injection E as <- <- <-;
    split; [apply (mixed_rev_check 10 1014 8193); vm_compute; reflexivity|check_all_in]|].
  destruct H as [E|H]; [injection E as <- <- <-;
    split; [apply (mixed_rev_check 11 1016 8193); vm_compute; reflexivity|check_all_in]|].
  destruct H.
Qed.

Lemma red_omega_table : forall k omega p, In (k, omega, p)
  [(4, 6553, shoup_red_ntt16_12289); (7, 12208, shoup_red_ntt128_12289);
   (8, 8595, shoup_red_ntt256_12289); (9, 10600, shoup_red_ntt512_12289);
   (10, 8209, shoup_red_ntt1024_12289); (11, 12269, shoup_red_ntt2048_12289)] ->
  omega_table k omega 8193 p /\ all_in 0 12288 p.
Proof.
  intros k omega p H. cbn [In] in H.
  destruct H as [E|H]; [injection E as <- <- <-;
    split; [apply (omega_check 4 6553 8193); vm_compute; reflexivity|check_all_in]|].
  destruct H as [E|H]; [injection E as <- <- <-;
    split; [apply (omega_check 7 12208 8193); vm_compute; reflexivity|check_all_in]|].
  destruct H as [E|H]; [injection E as <- <- <-;
    split; [apply (omega_check 8 8595 8193); vm_compute; reflexivity|check_all_in]|].
  destruct H as [E|H]; [injection E as <- <- <-;
    split; [apply (omega_check 9 10600 8193); vm_compute; reflexivity|check_all_in]|].
  destruct H as [E|H]; [injection E as <- <- <-;
    split; [apply (omega_check 10 8209 8193); vm_compute; reflexivity|check_all_in]|].
  destruct H as [E|H]; [injection E as <- <- <-;
    split; [apply (omega_check 11 12269 8193); vm_compute; reflexivity|check_all_in]|].
  destruct H.
Qed.

Lemma red_omega_table_rev : forall k omega p, In (k, omega, p)
  [(4, 6553, rev_shoup_red_ntt16_12289); (7, 12208, rev_shoup_red_ntt128_12289);
   (8, 8595, rev_shoup_red_ntt256_12289); (9, 10600, rev_shoup_red_ntt512_12289);
   (10, 8209, rev_shoup_red_ntt1024_12289); (11, 12269, rev_shoup_red_ntt2048_12289)] ->
  omega_table_rev k omega 8193 p /\ all_in 0 12288 p.
Proof.
  intros k omega p H. cbn [In] in H.
  destruct H as [E|H]; [injection E as <- <- <-;
    split; [apply (omega_rev_check 4 6553 8193); vm_compute; reflexivity|check_all_in]|].
  destruct H as [E|H]; [injection E as <- <- <-;
    split; [apply (omega_rev_check 7 12208 8193); vm_compute; reflexivity|check_all_in]|].
  destruct H as [E|H]; [injection E as <- <- <-;
    split; [apply (omega_rev_check 8 8595 8193); vm_compute; reflexivity|check_all_in]|].
  destruct H as [E|H]; [injection E as <- <- <-;
    split; [apply (omega_rev_check 9 10600 8193); vm_compute; reflexivity|check_all_in]|].
  destruct H as [E|H]; [injection E as <- <- <-;
    split; [apply (omega_rev_check 10 8209 8193); vm_compute; reflexivity|check_all_in]|].
  destruct H as [E|H]; [injection E as <- <- <-;
    split; [apply (omega_rev_check 11 12269 8193); vm_compute; reflexivity|check_all_in]|].
  destruct H.
Qed.

Lemma red_mixed_table : forall k psi p, In (k, psi, p)
  [(4, 1212, shoup_red_scaled_ntt16_12289); (7, 1022, shoup_red_scaled_ntt128_12289);
   (8, 1002, shoup_red_scaled_ntt256_12289); (9, 1003, shoup_red_scaled_ntt512_12289);
   (10, 1014, shoup_red_scaled_ntt1024_12289); (11, 1016, shoup_red_scaled_ntt2048_12289)] ->
  mixed_table k psi 8193 p /\ all_in 0 12288 p.
Proof.
  intros k psi p H. cbn [In] in H.
  destruct H as [E|H]; [injection E as <- <- <-;
    split; [apply (mixed_check 4 1212 8193); vm_compute; reflexivity|check_all_in]|].
  destruct H as [E|H]; [injection E as <- <- <-;
    split; [apply (mixed_check 7 1022 8193); vm_compute; reflexivity|check_all_in]|].
  destruct H as [E|H]; [injection E as <- <- <-;
    split; [apply (mixed_check 8 1002 8193); vm_compute; reflexivity|check_all_in]|].
  destruct H as [E|H]; [injection E as <- <- <-;
    split; [apply (mixed_check 9 1003 8193); vm_compute; reflexivity|check_all_in]|].
  destruct H as [E|H]; [injection E as <- <- <-;
    split; [apply (mixed_check 10 1014 8193); vm_compute; reflexivity|check_all_in]|].
  destruct H as [E|H]; [injection E as <- <- <-;
    split; [apply (mixed_check 11 1016 8193); vm_compute; reflexivity|check_all_in]|].
  destruct H.
Qed.

Lemma red_mixed_table_rev : forall k psi p, In (k, psi, p)
  [(4, 1212, rev_shoup_red_scaled_ntt16_12289); (7, 1022, rev_shoup_red_scaled_ntt128_12289);
   (8, 1002, rev_shoup_red_scaled_ntt256_12289); (9, 1003, rev_shoup_red_scaled_ntt512_12289);
   (10, 1014, rev_shoup_red_scaled_ntt1024_12289); (11, 1016, rev_shoup_red_scaled_ntt2048_12289)] ->
  mixed_table_rev k psi 8193 p /\ all_in 0 12288 p.
Proof.
  intros k psi p H. cbn [In] in H.
  destruct H as [E|H]; [injection E as <- <- <-;
    split; [apply (mixed_rev_check 4 1212 8193); vm_compute; reflexivity|check_all_in]|].
  destruct H as [E|H]; [injection E as <- <- <-;
    split; [apply (mixed_rev_check 7 1022 8193); vm_compute; reflexivity|check_all_in]|].
  destruct H as [E|H]; [injection E as <- <- <-;
    split; [apply (mixed_rev_check 8 1002 8193); vm_compute; reflexivity|check_all_in]|].
  destruct H as [E|H]; [injection E as <- <- <-;
    split; [apply (mixed_rev_check 9 1003 8193); vm_compute; reflexivity|check_all_in]|].
  destruct H as [E|H]; [injection E as <- <- <-;
    split; [apply (mixed_rev_check 10 1014 8193); vm_compute; reflexivity|check_all_in]|].
  destruct H as [E|H]; [injection E as <- <- <-;
    split; [apply (mixed_rev_check 11 1016 8193); vm_compute; reflexivity|check_all_in]|].
  destruct H.
Qed.

Lemma ntt_omega_table : forall k omega p, In (k, omega, p)
  [(4, 6553, shoup_ntt16_12289); (8, 8595, shoup_ntt256_12289);
   (9, 10600, shoup_ntt512_12289); (10, 8209, shoup_ntt1024_12289)] ->
  omega_table k omega 1 p /\ all_in 0 12288 p.
Proof.
  intros k omega p H. cbn [In] in H.
  destruct H as [E|H]; [injection E as <- <- <-;
    split; [apply (omega_check 4 6553 1); vm_compute; reflexivity|check_all_in]|].
  destruct H as [E|H]; [injection E as <- <- <-;
    split; [apply (omega_check 8 8595 1); vm_compute; reflexivity|check_all_in]|].
  destruct H as [E|H]; [injection E as <- <- <-;
    split; [apply (omega_check 9 10600 1); vm_compute; reflexivity|check_all_in]|].
  destruct H as [E|H]; [injection E as <- <- <-;
    split; [apply (omega_check 10 8209 1); vm_compute; reflexivity|check_all_in]|].
  destruct H.
Qed.

Lemma ntt_omega_table_rev : forall k omega p, In (k, omega, p)
  [(4, 6553, rev_shoup_ntt16_12289); (8, 8595, rev_shoup_ntt256_12289);
   (9, 10600, rev_shoup_ntt512_12289); (10, 8209, rev_shoup_ntt1024_12289)] ->
  omega_table_rev k omega 1 p /\ all_in 0 12288 p.
Proof.
  intros k omega p H. cbn [In] in H.
  destruct H as [E|H]; [injection E as <- <- <-;
    split; [apply (omega_rev_check 4 6553 1); vm_compute; reflexivity|check_all_in]|].
  destruct H as [E|H]; [injection E as <- <- <-;
    split; [apply (omega_rev_check 8 8595 1); vm_compute; reflexivity|check_all_in]|].
  destruct H as [E|H]; [injection E as <- <- <-;
    split; [apply (omega_rev_check 9 10600 1); vm_compute; reflexivity|check_all_in]|].
  destruct H as [E|H]; [injection E as <- <- <-;
    split; [apply (omega_rev_check 10 8209 1); vm_compute; reflexivity|check_all_in]|].
  destruct H.
Qed.

Lemma ntt_mixed_table : forall k psi p, In (k, psi, p)
  [(4, 1212, shoup_scaled_ntt16_12289); (8, 1002, shoup_scaled_ntt256_12289);
   (9, 1003, shoup_scaled_ntt512_12289); (10, 1014, shoup_scaled_ntt1024_12289)] ->
  mixed_table k psi 1 p /\ all_in 0 12288 p.
Proof.
  intros k psi p H. cbn [In] in H.
  destruct H as [E|H]; [injection E as <- <- <-;
    split; [apply (mixed_check 4 1212 1); vm_compute; reflexivity|check_all_in]|].
  destruct H as [E|H]; [injection E as <- <- <-;
    split; [apply (mixed_check 8 1002 1); vm_compute; reflexivity|check_all_in]|].
  destruct H as [E|H]; [injection E as <- <- <-;
    split; [apply (mixed_check 9 1003 1); vm_compute; reflexivity|check_all_in]|].
  destruct H as [E|H]; [injection E as <- <- <-;
    split; [apply (mixed_check 10 1014 1); vm_compute; reflexivity|check_all_in]|].
  destruct H.
Qed.

Lemma ntt_mixed_table_rev : forall k psi p, In (k, psi, p)
  [(4, 1212, rev_shoup_scaled_ntt16_12289); (8, 1002, rev_shoup_scaled_ntt256_12289);
   (9, 1003, rev_shoup_scaled_ntt512_12289); (10, 1014, rev_shoup_scaled_ntt1024_12289)] ->
  mixed_table_rev k psi 1 p /\ all_in 0 12288 p.
Proof.
  intros k psi p H. cbn [In] in H.
  destruct H as [E|H]; [injection E as <- <- <-;
    split; [apply (mixed_rev_check 4 1212 1); vm_compute; reflexivity|check_all_in]|].
  destruct H as [E|H]; [injection E as <- <- <-;
    split; [apply (mixed_rev_check 8 1002 1); vm_compute; reflexivity|check_all_in]|].
  destruct H as [E|H]; [injection E as <- <- <-;
    split; [apply (mixed_rev_check 9 1003 1); vm_compute; reflexivity|check_all_in]|].
  destruct H as [E|H]; [injection E as <- <- <-;
    split; [apply (mixed_rev_check 10 1014 1); vm_compute; reflexivity|check_all_in]|].
  destruct H.
Qed.

Lemma red_test_tables_L :
  (forall k omega p, In (k, omega, p)
  [(4, 6553, shoup_sred_ntt16_12289); (7, 12208, shoup_sred_ntt128_12289);
   (8, 8595, shoup_sred_ntt256_12289); (9, 10600, shoup_sred_ntt512_12289);
   (10, 8209, shoup_sred_ntt1024_12289); (11, 12269, shoup_sred_ntt2048_12289)] ->
  omega_table k omega 8193 p /\ all_in (-6144) 6144 p)
  /\ (forall k omega p, In (k, omega, p)
  [(4, 6553, rev_shoup_sred_ntt16_12289); (7, 12208, rev_shoup_sred_ntt128_12289);
   (8, 8595, rev_shoup_sred_ntt256_12289); (9, 10600, rev_shoup_sred_ntt512_12289);
   (10, 8209, rev_shoup_sred_ntt1024_12289); (11, 12269, rev_shoup_sred_ntt2048_12289)] ->
  omega_table_rev k omega 8193 p /\ all_in (-6144) 6144 p)
  /\ (forall k psi p, In (k, psi, p)
  [(4, 1212, shoup_sred_scaled_ntt16_12289); (7, 1022, shoup_sred_scaled_ntt128_12289);
   (8, 1002, shoup_sred_scaled_ntt256_12289); (9, 1003, shoup_sred_scaled_ntt512_12289);
   (10, 1014, shoup_sred_scaled_ntt1024_12289); (11, 1016, shoup_sred_scaled_ntt2048_12289)] ->
  mixed_table k psi 8193 p /\ all_in (-6144) 6144 p)
  /\ (forall k psi p, In (k, psi, p)
  [(4, 1212, rev_shoup_sred_scaled_ntt16_12289); (7, 1022, rev_shoup_sred_scaled_ntt128_12289);
   (8, 1002, rev_shoup_sred_scaled_ntt256_12289); (9, 1003, rev_shoup_sred_scaled_ntt512_12289);
   (10, 1014, rev_shoup_sred_scaled_ntt1024_12289); (11, 1016, rev_shoup_sred_scaled_ntt2048_12289)] ->
  mixed_table_rev k psi 8193 p /\ all_in (-6144) 6144 p)
  /\ (forall k omega p, In (k, omega, p)
  [(4, 6553, shoup_red_ntt16_12289); (7, 12208, shoup_red_ntt128_12289);
   (8, 8595, shoup_red_ntt256_12289); (9, 10600, shoup_red_ntt512_12289);
   (10, 8209, shoup_red_ntt1024_12289); (11, 12269, shoup_red_ntt2048_12289)] ->
  omega_table k omega 8193 p /\ all_in 0 12288 p)
  /\ (forall k omega p, In (k, omega, p)
  [(4, 6553, rev_shoup_red_ntt16_12289); (7, 12208, rev_shoup_red_ntt128_12289);
   (8, 8595, rev_shoup_red_ntt256_12289); (9, 10600, rev_shoup_red_ntt512_12289);
   (10, 8209, rev_shoup_red_ntt1024_12289); (11, 12269, rev_shoup_red_ntt2048_12289)] ->
  omega_table_rev k omega 8193 p /\ all_in 0 12288 p)
  /\ (forall k psi p, In (k, psi, p)
  [(4, 1212, shoup_red_scaled_ntt16_12289); (7, 1022, shoup_red_scaled_ntt128_12289);
   (8, 1002, shoup_red_scaled_ntt256_12289); (9, 1003, shoup_red_scaled_ntt512_12289);
   (10, 1014, shoup_red_scaled_ntt1024_12289); (11, 1016, shoup_red_scaled_ntt2048_12289)] ->
  mixed_table k psi 8193 p /\ all_in 0 12288 p)
  /\ (forall k psi p, In (k, psi, p)
  [(4, 1212, rev_shoup_red_scaled_ntt16_12289); (7, 1022, rev_shoup_red_scaled_ntt128_12289);
   (8, 1002, rev_shoup_red_scaled_ntt256_12289); (9, 1003, rev_shoup_red_scaled_ntt512_12289);
   (10, 1014, rev_shoup_red_scaled_ntt1024_12289); (11, 1016, rev_shoup_red_scaled_ntt2048_12289)] ->
  mixed_table_rev k psi 8193 p /\ all_in 0 12288 p).
Proof. split; [exact sred_omega_table|]. split; [exact sred_omega_table_rev|]. split; [exact sred_mixed_table|]. split; [exact sred_mixed_table_rev|]. split; [exact red_omega_table|]. split; [exact red_omega_table_rev|]. split; [exact red_mixed_table|]. exact red_mixed_table_rev. Qed.

(** A table of the powers of [w], canonical *)
Lemma powers_check (k : nat) w p : strip (pw k w 1) p = Some [] -> all_inb 0 12288 p = true ->
  zlen p = 2 ^ Z.of_nat k /\ forall i, 0 <= i < 2 ^ Z.of_nat k -> at_ p i = w ^ i mod Q.
Proof.
  intros E H. apply all_inb_ok in H. apply strip_ok in E as (u & -> & L & V). rewrite app_nil_r in *. rewrite pw_len in L, V.
  split; [exact L|]. intros i Hi. assert (A := all_in_at _ _ _ i H ltac:(rewrite L; exact Hi)).
  rewrite <- (Z.mod_small (at_ u i) Q) by (unfold Q; lia). change (eqQ (at_ u i) (w ^ i)). rewrite V by exact Hi.
  rewrite pw_at by exact Hi. rewrite Z.mul_1_l. reflexivity.
Qed.

Lemma psi_powers_tables : forall k psi p, In (k, psi, p)
  [(4, 1212, psi_powers_ntt16_12289); (8, 1002, psi_powers_ntt256_12289); (9, 1003, psi_powers_ntt512_12289); (10, 1014, psi_powers_ntt1024_12289)] ->
  zlen p = 2 ^ k /\ forall i, 0 <= i < 2 ^ k -> at_ p i = psi ^ i mod Q.
Proof.
  intros k psi p H. cbn [In] in H.
  destruct H as [E|H]; [injection E as <- <- <-;
    apply (powers_check 4); vm_compute; reflexivity|].
  destruct H as [E|H]; [injection E as <- <- <-;
    apply (powers_check 8); vm_compute; reflexivity|].
  destruct H as [E|H]; [injection E as <- <- <-;
    apply (powers_check 9); vm_compute; reflexivity|].
  destruct H as [E|H]; [injection E as <- <- <-;
    apply (powers_check 10); vm_compute; reflexivity|].
  destruct H.
Qed.

Lemma ntt_test_tables_L :
  (forall k omega p, In (k, omega, p)
  [(4, 6553, shoup_ntt16_12289); (8, 8595, shoup_ntt256_12289);
   (9, 10600, shoup_ntt512_12289); (10, 8209, shoup_ntt1024_12289)] ->
  omega_table k omega 1 p /\ all_in 0 12288 p)
  /\ (forall k omega p, In (k, omega, p)
  [(4, 6553, rev_shoup_ntt16_12289); (8, 8595, rev_shoup_ntt256_12289);
   (9, 10600, rev_shoup_ntt512_12289); (10, 8209, rev_shoup_ntt1024_12289)] ->
  omega_table_rev k omega 1 p /\ all_in 0 12288 p)
  /\ (forall k psi p, In (k, psi, p)
  [(4, 1212, shoup_scaled_ntt16_12289); (8, 1002, shoup_scaled_ntt256_12289);
   (9, 1003, shoup_scaled_ntt512_12289); (10, 1014, shoup_scaled_ntt1024_12289)] ->
  mixed_table k psi 1 p /\ all_in 0 12288 p)
  /\ (forall k psi p, In (k, psi, p)
  [(4, 1212, rev_shoup_scaled_ntt16_12289); (8, 1002, rev_shoup_scaled_ntt256_12289);
   (9, 1003, rev_shoup_scaled_ntt512_12289); (10, 1014, rev_shoup_scaled_ntt1024_12289)] ->
  mixed_table_rev k psi 1 p /\ all_in 0 12288 p)
  /\ (forall k psi p, In (k, psi, p)
  [(4, 1212, psi_powers_ntt16_12289); (8, 1002, psi_powers_ntt256_12289); (9, 1003, psi_powers_ntt512_12289); (10, 1014, psi_powers_ntt1024_12289)] ->
  zlen p = 2 ^ k /\ forall i, 0 <= i < 2 ^ k -> at_ p i = psi ^ i mod Q).
Proof. split; [exact ntt_omega_table|]. split; [exact ntt_omega_table_rev|]. split; [exact ntt_mixed_table|]. split; [exact ntt_mixed_table_rev|]. exact psi_powers_tables. Qed.

(** The tests *)
Lemma tests_of k omega p pr shuffle a0 f g : 1 <= k <= 11 -> 0 <= omega < 12289 -> eqQ (omega ^ (2 ^ (k - 1))) (-1) ->
  omega_table k omega 8193 p -> all_in (-6144) 6144 p -> omega_table_rev k omega 8193 pr -> all_in (-6144) 6144 pr ->
  (forall a, zlen a = 2 ^ k -> shuffle a = ModelNtt.bitrev_shuffle a (2 ^ k)) -> zlen a0 = 2 ^ k ->
  let test W := test_simple_polys a0 (2 ^ k) W omega = Ok tt in
  (In f [ModelRed.ntt_red_ct_rev2std; ModelRed.mulntt_red_ct_rev2std] -> test (rev2std (2 ^ k) shuffle f p))
  /\ (In f [ModelRed.ntt_red_ct_std2rev; ModelRed.mulntt_red_ct_std2rev] -> test (std2rev (2 ^ k) shuffle f pr))
  /\ (In g [ModelRed.ntt_red_gs_rev2std; ModelRed.nttmul_red_gs_rev2std] -> test (rev2std (2 ^ k) shuffle g pr))
  /\ (In g [ModelRed.ntt_red_gs_std2rev; ModelRed.nttmul_red_gs_std2rev] -> test (std2rev (2 ^ k) shuffle g p)).
Proof.
  intros Hk Ho Hw T I Tr Ir Hs La test. assert (Lp := proj1 T). assert (Lr := proj1 Tr).
  repeat split; intros Hf; apply basis_pass; auto; try lia.
  - apply rev2std_right; auto. left. auto.
  - apply std2rev_right; auto. left. auto.
  - apply rev2std_right; auto. right. auto.
  - apply std2rev_right; auto. right. auto.
Qed.

Section Program.
Variables (clk : Z -> Z) (stk : Z -> Z -> list Z).
Hypothesis Hstk : forall c n, 0 <= n -> zlen (stk c n) = n.

Ltac in_list := cbn [In]; repeat (first [left; reflexivity | right]).

Lemma tests16_ok : tests16 stk = Ok tt.
Proof.
  destruct (sred_omega_table 4 6553 shoup_sred_ntt16_12289 ltac:(in_list)) as [T I].
  destruct (sred_omega_table_rev 4 6553 rev_shoup_sred_ntt16_12289 ltac:(in_list)) as [Tr Ir].
  assert (K : 1 <= 4 <= 11) by lia. assert (O : 0 <= 6553 < 12289) by lia. assert (N : 0 <= 16) by lia.
  assert (Hw : eqQ (6553 ^ (2 ^ (4 - 1))) (-1))
    by (change (4 - 1) with (Z.of_nat 3); rewrite <- sq_ok; vm_compute; reflexivity).
  unfold tests16.
  assert (X := fun sh c f g Hs => tests_of 4 6553 _ _ sh (stk c 16) f g K O Hw T I Tr Ir Hs (Hstk c 16 N)).
  change (2 ^ 4) with 16 in X.
  assert (E0 : test_simple_polys (stk 0 16) 16 ntt16_red_ct_rev2std 6553 = Ok tt)
    by exact (proj1 (X (fun a => ModelNtt.bitrev_shuffle a 16) 0 ModelRed.ntt_red_ct_rev2std ModelRed.ntt_red_ct_rev2std (fun _ _ => eq_refl)) ltac:(in_list)).
  assert (E1 : test_simple_polys (stk 1 16) 16 ntt16_red_ct_std2rev 6553 = Ok tt)
    by exact (proj1 (proj2 (X (fun a => ModelNtt.bitrev_shuffle a 16) 1 ModelRed.ntt_red_ct_std2rev ModelRed.ntt_red_ct_std2rev (fun _ _ => eq_refl))) ltac:(in_list)).
  assert (E2 : test_simple_polys (stk 2 16) 16 ntt16_red_gs_rev2std 6553 = Ok tt)
    by exact (proj1 (proj2 (proj2 (X (fun a => ModelNtt.bitrev_shuffle a 16) 2 ModelRed.ntt_red_gs_rev2std ModelRed.ntt_red_gs_rev2std (fun _ _ => eq_refl)))) ltac:(in_list)).
  assert (E3 : test_simple_polys (stk 3 16) 16 ntt16_red_gs_std2rev 6553 = Ok tt)
    by exact (proj2 (proj2 (proj2 (X (fun a => ModelNtt.bitrev_shuffle a 16) 3 ModelRed.ntt_red_gs_std2rev ModelRed.ntt_red_gs_std2rev (fun _ _ => eq_refl)))) ltac:(in_list)).
  assert (E4 : test_simple_polys (stk 4 16) 16 mulntt16_red_ct_rev2std 6553 = Ok tt)
    by exact (proj1 (X (fun a => ModelNtt.bitrev_shuffle a 16) 4 ModelRed.mulntt_red_ct_rev2std ModelRed.mulntt_red_ct_rev2std (fun _ _ => eq_refl)) ltac:(in_list)).
  assert (E5 : test_simple_polys (stk 5 16) 16 mulntt16_red_ct_std2rev 6553 = Ok tt)
    by exact (proj1 (proj2 (X (fun a => ModelNtt.bitrev_shuffle a 16) 5 ModelRed.mulntt_red_ct_std2rev ModelRed.mulntt_red_ct_std2rev (fun _ _ => eq_refl))) ltac:(in_list)).
  assert (E6 : test_simple_polys (stk 6 16) 16 nttmul16_red_gs_rev2std 6553 = Ok tt)
    by exact (proj1 (proj2 (proj2 (X (fun a => ModelNtt.bitrev_shuffle a 16) 6 ModelRed.nttmul_red_gs_rev2std ModelRed.nttmul_red_gs_rev2std (fun _ _ => eq_refl)))) ltac:(in_list)).
  assert (E7 : test_simple_polys (stk 7 16) 16 nttmul16_red_gs_std2rev 6553 = Ok tt)
    by exact (proj2 (proj2 (proj2 (X (fun a => ModelNtt.bitrev_shuffle a 16) 7 ModelRed.nttmul_red_gs_std2rev ModelRed.nttmul_red_gs_std2rev (fun _ _ => eq_refl)))) ltac:(in_list)).
  rewrite E0; cbn [bind].
  rewrite E1; cbn [bind].
  rewrite E2; cbn [bind].
  rewrite E3; cbn [bind].
  rewrite E4; cbn [bind].
  rewrite E5; cbn [bind].
  rewrite E6; cbn [bind].
  exact E7.
Qed.

Lemma tests128_ok : tests128 stk = Ok tt.
Proof.
  destruct (sred_omega_table 7 12208 shoup_sred_ntt128_12289 ltac:(in_list)) as [T I].
  destruct (sred_omega_table_rev 7 12208 rev_shoup_sred_ntt128_12289 ltac:(in_list)) as [Tr Ir].
  assert (K : 1 <= 7 <= 11) by lia. assert (O : 0 <= 12208 < 12289) by lia. assert (N : 0 <= 128) by lia.
  assert (Hw : eqQ (12208 ^ (2 ^ (7 - 1))) (-1))
    by (change (7 - 1) with (Z.of_nat 6); rewrite <- sq_ok; vm_compute; reflexivity).
  unfold tests128.
  assert (X := fun sh c f g Hs => tests_of 7 12208 _ _ sh (stk c 128) f g K O Hw T I Tr Ir Hs (Hstk c 128 N)).
  change (2 ^ 7) with 128 in X.
  assert (E0 : test_simple_polys (stk 8 128) 128 ntt128_red_ct_rev2std 12208 = Ok tt)
    by exact (proj1 (X bitrev_shuffle128 8 ModelRed.ntt_red_ct_rev2std ModelRed.ntt_red_ct_rev2std shuffle128_ok) ltac:(in_list)).
  assert (E1 : test_simple_polys (stk 9 128) 128 ntt128_red_ct_std2rev 12208 = Ok tt)
    by exact (proj1 (proj2 (X bitrev_shuffle128 9 ModelRed.ntt_red_ct_std2rev ModelRed.ntt_red_ct_std2rev shuffle128_ok)) ltac:(in_list)).
  assert (E2 : test_simple_polys (stk 10 128) 128 ntt128_red_gs_rev2std 12208 = Ok tt)
    by exact (proj1 (proj2 (proj2 (X bitrev_shuffle128 10 ModelRed.ntt_red_gs_rev2std ModelRed.ntt_red_gs_rev2std shuffle128_ok))) ltac:(in_list)).
  assert (E3 : test_simple_polys (stk 11 128) 128 ntt128_red_gs_std2rev 12208 = Ok tt)
    by exact (proj2 (proj2 (proj2 (X bitrev_shuffle128 11 ModelRed.ntt_red_gs_std2rev ModelRed.ntt_red_gs_std2rev shuffle128_ok))) ltac:(in_list)).
  assert (E4 : test_simple_polys (stk 12 128) 128 mulntt128_red_ct_rev2std 12208 = Ok tt)
    by exact (proj1 (X (fun a => ModelNtt.bitrev_shuffle a 128) 12 ModelRed.mulntt_red_ct_rev2std ModelRed.mulntt_red_ct_rev2std (fun _ _ => eq_refl)) ltac:(in_list)).
  assert (E5 : test_simple_polys (stk 13 128) 128 mulntt128_red_ct_std2rev 12208 = Ok tt)
    by exact (proj1 (proj2 (X (fun a => ModelNtt.bitrev_shuffle a 128) 13 ModelRed.mulntt_red_ct_std2rev ModelRed.mulntt_red_ct_std2rev (fun _ _ => eq_refl))) ltac:(in_list)).
  assert (E6 : test_simple_polys (stk 14 128) 128 nttmul128_red_gs_rev2std 12208 = Ok tt)
    by exact (proj1 (proj2 (proj2 (X (fun a => ModelNtt.bitrev_shuffle a 128) 14 ModelRed.nttmul_red_gs_rev2std ModelRed.nttmul_red_gs_rev2std (fun _ _ => eq_refl)))) ltac:(in_list)).
  assert (E7 : test_simple_polys (stk 15 128) 128 nttmul128_red_gs_std2rev 12208 = Ok tt)
    by exact (proj2 (proj2 (proj2 (X (fun a => ModelNtt.bitrev_shuffle a 128) 15 ModelRed.nttmul_red_gs_std2rev ModelRed.nttmul_red_gs_std2rev (fun _ _ => eq_refl)))) ltac:(in_list)).
  rewrite E0; cbn [bind].
  rewrite E1; cbn [bind].
  rewrite E2; cbn [bind].
  rewrite E3; cbn [bind].
  rewrite E4; cbn [bind].
  rewrite E5; cbn [bind].
  rewrite E6; cbn [bind].
  exact E7.
Qed.

Lemma tests256_ok : tests256 stk = Ok tt.
Proof.
  destruct (sred_omega_table 8 8595 shoup_sred_ntt256_12289 ltac:(in_list)) as [T I].
  destruct (sred_omega_table_rev 8 8595 rev_shoup_sred_ntt256_12289 ltac:(in_list)) as [Tr Ir].
  assert (K : 1 <= 8 <= 11) by lia. assert (O : 0 <= 8595 < 12289) by lia. assert (N : 0 <= 256) by lia.
  assert (Hw : eqQ (8595 ^ (2 ^ (8 - 1))) (-1))
    by (change (8 - 1) with (Z.of_nat 7); rewrite <- sq_ok; vm_compute; reflexivity).
  unfold tests256.
  assert (X := fun sh c f g Hs => tests_of 8 8595 _ _ sh (stk c 256) f g K O Hw T I Tr Ir Hs (Hstk c 256 N)).
  change (2 ^ 8) with 256 in X.
  assert (E0 : test_simple_polys (stk 16 256) 256 ntt256_red_ct_rev2std 8595 = Ok tt)
    by exact (proj1 (X bitrev_shuffle256 16 ModelRed.ntt_red_ct_rev2std ModelRed.ntt_red_ct_rev2std shuffle256_ok) ltac:(in_list)).
  assert (E1 : test_simple_polys (stk 17 256) 256 ntt256_red_ct_std2rev 8595 = Ok tt)
    by exact (proj1 (proj2 (X bitrev_shuffle256 17 ModelRed.ntt_red_ct_std2rev ModelRed.ntt_red_ct_std2rev shuffle256_ok)) ltac:(in_list)).
  assert (E2 : test_simple_polys (stk 18 256) 256 ntt256_red_gs_rev2std 8595 = Ok tt)
    by exact (proj1 (proj2 (proj2 (X bitrev_shuffle256 18 ModelRed.ntt_red_gs_rev2std ModelRed.ntt_red_gs_rev2std shuffle256_ok))) ltac:(in_list)).
  assert (E3 : test_simple_polys (stk 19 256) 256 ntt256_red_gs_std2rev 8595 = Ok tt)
    by exact (proj2 (proj2 (proj2 (X bitrev_shuffle256 19 ModelRed.ntt_red_gs_std2rev ModelRed.ntt_red_gs_std2rev shuffle256_ok))) ltac:(in_list)).
  assert (E4 : test_simple_polys (stk 20 256) 256 mulntt256_red_ct_rev2std 8595 = Ok tt)
    by exact (proj1 (X (fun a => ModelNtt.bitrev_shuffle a 256) 20 ModelRed.mulntt_red_ct_rev2std ModelRed.mulntt_red_ct_rev2std (fun _ _ => eq_refl)) ltac:(in_list)).
  assert (E5 : test_simple_polys (stk 21 256) 256 mulntt256_red_ct_std2rev 8595 = Ok tt)
    by exact (proj1 (proj2 (X (fun a => ModelNtt.bitrev_shuffle a 256) 21 ModelRed.mulntt_red_ct_std2rev ModelRed.mulntt_red_ct_std2rev (fun _ _ => eq_refl))) ltac:(in_list)).
  assert (E6 : test_simple_polys (stk 22 256) 256 nttmul256_red_gs_rev2std 8595 = Ok tt)
    by exact (proj1 (proj2 (proj2 (X (fun a => ModelNtt.bitrev_shuffle a 256) 22 ModelRed.nttmul_red_gs_rev2std ModelRed.nttmul_red_gs_rev2std (fun _ _ => eq_refl)))) ltac:(in_list)).
  assert (E7 : test_simple_polys (stk 23 256) 256 nttmul256_red_gs_std2rev 8595 = Ok tt)
    by exact (proj2 (proj2 (proj2 (X (fun a => ModelNtt.bitrev_shuffle a 256) 23 ModelRed.nttmul_red_gs_std2rev ModelRed.nttmul_red_gs_std2rev (fun _ _ => eq_refl)))) ltac:(in_list)).
  rewrite E0; cbn [bind].
  rewrite E1; cbn [bind].
  rewrite E2; cbn [bind].
  rewrite E3; cbn [bind].
  rewrite E4; cbn [bind].
  rewrite E5; cbn [bind].
  rewrite E6; cbn [bind].
  exact E7.
Qed.

Lemma tests512_ok : tests512 stk = Ok tt.
Proof.
  destruct (sred_omega_table 9 10600 shoup_sred_ntt512_12289 ltac:(in_list)) as [T I].
  destruct (sred_omega_table_rev 9 10600 rev_shoup_sred_ntt512_12289 ltac:(in_list)) as [Tr Ir].
  assert (K : 1 <= 9 <= 11) by lia. assert (O : 0 <= 10600 < 12289) by lia. assert (N : 0 <= 512) by lia.
  assert (Hw : eqQ (10600 ^ (2 ^ (9 - 1))) (-1))
    by (change (9 - 1) with (Z.of_nat 8); rewrite <- sq_ok; vm_compute; reflexivity).
  unfold tests512.
  assert (X := fun sh c f g Hs => tests_of 9 10600 _ _ sh (stk c 512) f g K O Hw T I Tr Ir Hs (Hstk c 512 N)).
  change (2 ^ 9) with 512 in X.
  assert (E0 : test_simple_polys (stk 24 512) 512 ntt512_red_ct_rev2std 10600 = Ok tt)
    by exact (proj1 (X bitrev_shuffle512 24 ModelRed.ntt_red_ct_rev2std ModelRed.ntt_red_ct_rev2std shuffle512_ok) ltac:(in_list)).
  assert (E1 : test_simple_polys (stk 25 512) 512 ntt512_red_ct_std2rev 10600 = Ok tt)
    by exact (proj1 (proj2 (X bitrev_shuffle512 25 ModelRed.ntt_red_ct_std2rev ModelRed.ntt_red_ct_std2rev shuffle512_ok)) ltac:(in_list)).
  assert (E2 : test_simple_polys (stk 26 512) 512 ntt512_red_gs_rev2std 10600 = Ok tt)
    by exact (proj1 (proj2 (proj2 (X bitrev_shuffle512 26 ModelRed.ntt_red_gs_rev2std ModelRed.ntt_red_gs_rev2std shuffle512_ok))) ltac:(in_list)).
  assert (E3 : test_simple_polys (stk 27 512) 512 ntt512_red_gs_std2rev 10600 = Ok tt)
    by exact (proj2 (proj2 (proj2 (X bitrev_shuffle512 27 ModelRed.ntt_red_gs_std2rev ModelRed.ntt_red_gs_std2rev shuffle512_ok))) ltac:(in_list)).
  assert (E4 : test_simple_polys (stk 28 512) 512 mulntt512_red_ct_rev2std 10600 = Ok tt)
    by exact (proj1 (X (fun a => ModelNtt.bitrev_shuffle a 512) 28 ModelRed.mulntt_red_ct_rev2std ModelRed.mulntt_red_ct_rev2std (fun _ _ => eq_refl)) ltac:(in_list)).
  assert (E5 : test_simple_polys (stk 29 512) 512 mulntt512_red_ct_std2rev 10600 = Ok tt)
    by exact (proj1 (proj2 (X (fun a => ModelNtt.bitrev_shuffle a 512) 29 ModelRed.mulntt_red_ct_std2rev ModelRed.mulntt_red_ct_std2rev (fun _ _ => eq_refl))) ltac:(in_list)).
  assert (E6 : test_simple_polys (stk 30 512) 512 nttmul512_red_gs_rev2std 10600 = Ok tt)
    by exact (proj1 (proj2 (proj2 (X (fun a => ModelNtt.bitrev_shuffle a 512) 30 ModelRed.nttmul_red_gs_rev2std ModelRed.nttmul_red_gs_rev2std (fun _ _ => eq_refl)))) ltac:(in_list)).
  assert (E7 : test_simple_polys (stk 31 512) 512 nttmul512_red_gs_std2rev 10600 = Ok tt)
    by exact (proj2 (proj2 (proj2 (X (fun a => ModelNtt.bitrev_shuffle a 512) 31 ModelRed.nttmul_red_gs_std2rev ModelRed.nttmul_red_gs_std2rev (fun _ _ => eq_refl)))) ltac:(in_list)).
  rewrite E0; cbn [bind].
  rewrite E1; cbn [bind].
  rewrite E2; cbn [bind].
  rewrite E3; cbn [bind].
  rewrite E4; cbn [bind].
  rewrite E5; cbn [bind].
  rewrite E6; cbn [bind].
  exact E7.
Qed.

Lemma tests1024_ok : tests1024 stk = Ok tt.
Proof.
  destruct (sred_omega_table 10 8209 shoup_sred_ntt1024_12289 ltac:(in_list)) as [T I].
  destruct (sred_omega_table_rev 10 8209 rev_shoup_sred_ntt1024_12289 ltac:(in_list)) as [Tr Ir].
  assert (K : 1 <= 10 <= 11) by lia. assert (O : 0 <= 8209 < 12289) by lia. assert (N : 0 <= 1024) by lia.
  assert (Hw : eqQ (8209 ^ (2 ^ (10 - 1))) (-1))
    by (change (10 - 1) with (Z.of_nat 9); rewrite <- sq_ok; vm_compute; reflexivity).
  unfold tests1024.
  assert (X := fun sh c f g Hs => tests_of 10 8209 _ _ sh (stk c 1024) f g K O Hw T I Tr Ir Hs (Hstk c 1024 N)).
  change (2 ^ 10) with 1024 in X.
  assert (E0 : test_simple_polys (stk 32 1024) 1024 ntt1024_red_ct_rev2std 8209 = Ok tt)
    by exact (proj1 (X bitrev_shuffle1024 32 ModelRed.ntt_red_ct_rev2std ModelRed.ntt_red_ct_rev2std shuffle1024_ok) ltac:(in_list)).
  assert (E1 : test_simple_polys (stk 33 1024) 1024 ntt1024_red_ct_std2rev 8209 = Ok tt)
    by exact (proj1 (proj2 (X bitrev_shuffle1024 33 ModelRed.ntt_red_ct_std2rev ModelRed.ntt_red_ct_std2rev shuffle1024_ok)) ltac:(in_list)).
  assert (E2 : test_simple_polys (stk 34 1024) 1024 ntt1024_red_gs_rev2std 8209 = Ok tt)
    by exact (proj1 (proj2 (proj2 (X bitrev_shuffle1024 34 ModelRed.ntt_red_gs_rev2std ModelRed.ntt_red_gs_rev2std shuffle1024_ok))) ltac:(in_list)).
  assert (E3 : test_simple_polys (stk 35 1024) 1024 ntt1024_red_gs_std2rev 8209 = Ok tt)
    by exact (proj2 (proj2 (proj2 (X bitrev_shuffle1024 35 ModelRed.ntt_red_gs_std2rev ModelRed.ntt_red_gs_std2rev shuffle1024_ok))) ltac:(in_list)).
  assert (E4 : test_simple_polys (stk 36 1024) 1024 mulntt1024_red_ct_rev2std 8209 = Ok tt)
    by exact (proj1 (X (fun a => ModelNtt.bitrev_shuffle a 1024) 36 ModelRed.mulntt_red_ct_rev2std ModelRed.mulntt_red_ct_rev2std (fun _ _ => eq_refl)) ltac:(in_list)).
  assert (E5 : test_simple_polys (stk 37 1024) 1024 mulntt1024_red_ct_std2rev 8209 = Ok tt)
    by exact (proj1 (proj2 (X (fun a => ModelNtt.bitrev_shuffle a 1024) 37 ModelRed.mulntt_red_ct_std2rev ModelRed.mulntt_red_ct_std2rev (fun _ _ => eq_refl))) ltac:(in_list)).
  assert (E6 : test_simple_polys (stk 38 1024) 1024 nttmul1024_red_gs_rev2std 8209 = Ok tt)
    by exact (proj1 (proj2 (proj2 (X (fun a => ModelNtt.bitrev_shuffle a 1024) 38 ModelRed.nttmul_red_gs_rev2std ModelRed.nttmul_red_gs_rev2std (fun _ _ => eq_refl)))) ltac:(in_list)).
  assert (E7 : test_simple_polys (stk 39 1024) 1024 nttmul1024_red_gs_std2rev 8209 = Ok tt)
    by exact (proj2 (proj2 (proj2 (X (fun a => ModelNtt.bitrev_shuffle a 1024) 39 ModelRed.nttmul_red_gs_std2rev ModelRed.nttmul_red_gs_std2rev (fun _ _ => eq_refl)))) ltac:(in_list)).
  rewrite E0; cbn [bind].
  rewrite E1; cbn [bind].
  rewrite E2; cbn [bind].
  rewrite E3; cbn [bind].
  rewrite E4; cbn [bind].
  rewrite E5; cbn [bind].
  rewrite E6; cbn [bind].
  exact E7.
Qed.

Lemma tests2048_ok : tests2048 stk = Ok tt.
Proof.
  destruct (sred_omega_table 11 12269 shoup_sred_ntt2048_12289 ltac:(in_list)) as [T I].
  destruct (sred_omega_table_rev 11 12269 rev_shoup_sred_ntt2048_12289 ltac:(in_list)) as [Tr Ir].
  assert (K : 1 <= 11 <= 11) by lia. assert (O : 0 <= 12269 < 12289) by lia. assert (N : 0 <= 2048) by lia.
  assert (Hw : eqQ (12269 ^ (2 ^ (11 - 1))) (-1))
    by (change (11 - 1) with (Z.of_nat 10); rewrite <- sq_ok; vm_compute; reflexivity).
  unfold tests2048.
  assert (X := fun sh c f g Hs => tests_of 11 12269 _ _ sh (stk c 2048) f g K O Hw T I Tr Ir Hs (Hstk c 2048 N)).
  change (2 ^ 11) with 2048 in X.
  assert (E0 : test_simple_polys (stk 40 2048) 2048 ntt2048_red_ct_rev2std 12269 = Ok tt)
    by exact (proj1 (X bitrev_shuffle2048 40 ModelRed.ntt_red_ct_rev2std ModelRed.ntt_red_ct_rev2std shuffle2048_ok) ltac:(in_list)).
  assert (E1 : test_simple_polys (stk 41 2048) 2048 ntt2048_red_ct_std2rev 12269 = Ok tt)
    by exact (proj1 (proj2 (X bitrev_shuffle2048 41 ModelRed.ntt_red_ct_std2rev ModelRed.ntt_red_ct_std2rev shuffle2048_ok)) ltac:(in_list)).
  assert (E2 : test_simple_polys (stk 42 2048) 2048 ntt2048_red_gs_rev2std 12269 = Ok tt)
    by exact (proj1 (proj2 (proj2 (X bitrev_shuffle2048 42 ModelRed.ntt_red_gs_rev2std ModelRed.ntt_red_gs_rev2std shuffle2048_ok))) ltac:(in_list)).
  assert (E3 : test_simple_polys (stk 43 2048) 2048 ntt2048_red_gs_std2rev 12269 = Ok tt)
    by exact (proj2 (proj2 (proj2 (X bitrev_shuffle2048 43 ModelRed.ntt_red_gs_std2rev ModelRed.ntt_red_gs_std2rev shuffle2048_ok))) ltac:(in_list)).
  assert (E4 : test_simple_polys (stk 44 2048) 2048 mulntt2048_red_ct_rev2std 12269 = Ok tt)
    by exact (proj1 (X (fun a => ModelNtt.bitrev_shuffle a 2048) 44 ModelRed.mulntt_red_ct_rev2std ModelRed.mulntt_red_ct_rev2std (fun _ _ => eq_refl)) ltac:(in_list)).
  assert (E5 : test_simple_polys (stk 45 2048) 2048 mulntt2048_red_ct_std2rev 12269 = Ok tt)
    by exact (proj1 (proj2 (X (fun a => ModelNtt.bitrev_shuffle a 2048) 45 ModelRed.mulntt_red_ct_std2rev ModelRed.mulntt_red_ct_std2rev (fun _ _ => eq_refl))) ltac:(in_list)).
  assert (E6 : test_simple_polys (stk 46 2048) 2048 nttmul2048_red_gs_rev2std 12269 = Ok tt)
    by exact (proj1 (proj2 (proj2 (X (fun a => ModelNtt.bitrev_shuffle a 2048) 46 ModelRed.nttmul_red_gs_rev2std ModelRed.nttmul_red_gs_rev2std (fun _ _ => eq_refl)))) ltac:(in_list)).
  assert (E7 : test_simple_polys (stk 47 2048) 2048 nttmul2048_red_gs_std2rev 12269 = Ok tt)
    by exact (proj2 (proj2 (proj2 (X (fun a => ModelNtt.bitrev_shuffle a 2048) 47 ModelRed.nttmul_red_gs_std2rev ModelRed.nttmul_red_gs_std2rev (fun _ _ => eq_refl)))) ltac:(in_list)).
  rewrite E0; cbn [bind].
  rewrite E1; cbn [bind].
  rewrite E2; cbn [bind].
  rewrite E3; cbn [bind].
  rewrite E4; cbn [bind].
  rewrite E5; cbn [bind].
  rewrite E6; cbn [bind].
  exact E7.
Qed.

Lemma loop_err {S} (J : Z -> S -> Prop) n N e body (st : S) : 0 <= N < n -> n < 4294967296 -> J 0 st ->
  (forall i st, 0 <= i < N -> J i st -> exists st', body i st = Ok st' /\ J (i + 1) st') ->
  (forall st, J N st -> body N st = Err e) -> loop n body st = Err e.
Proof.
  intros HN Hn H0 Hb He. unfold loop.
  assert (G : forall f c st, 0 <= c <= N -> (Z.to_nat (N - c) < f)%nat -> J c st ->
    cfor f c (fun i => i <? n) (fun i => u32 (i + 1)) body st = Err e).
  { induction f as [|f IH]; intros c st' Hc Hf HJ; [lia|]. cbn [cfor].
    destruct (Z.ltb_spec c n); [|lia]. destruct (Z.eq_dec c N) as [->|]; [rewrite He by exact HJ; reflexivity|].
    destruct (Hb c st') as (s2 & -> & HJ2); [lia|exact HJ|]. cbn [bind]. rewrite u32_small by lia.
    apply IH; [lia|lia|exact HJ2]. }
  apply G; [lia|unfold fuel; lia|exact H0].
Qed.

Let f16 (a : list Z) := speed 16 ModelRed.ntt_red_ct_rev2std shoup_sred_ntt16_12289 a.
Let a16 := map Z.of_nat (seq 0 16).

Let b16 := [125829120; 1435915922; -1070805902; 709202179; -389519219; -993236260; -883496252; -711186789; 1325288216;
     705014196; -45236440; 658616529; -411536025; -408436066; -474112826; 427699617].
Lemma twelve_calls : exists b, times f16 11 a16 = Ok b /\ f16 b = Err SignedOverflow.
Proof. exists b16. split; vm_compute; reflexivity. Qed.
Lemma eleven_calls (i : Z) b : 0 <= i < 11 -> times f16 (Z.to_nat i) a16 = Ok b -> exists r, f16 b = Ok r.
Proof.
  intros Hi E. destruct (f16 b) as [r|e] eqn:F; [exists r; reflexivity|exfalso].
  assert (X : forall m, (Z.to_nat i < m)%nat -> times f16 m a16 = Err e).
  { induction m as [|m IH]; intros Hm; [lia|]. cbn [times]. destruct (Nat.eq_dec m (Z.to_nat i)) as [->|].
    - rewrite E. exact F.
    - rewrite IH by lia. reflexivity. }
  destruct twelve_calls as (c & C & _). rewrite X in C by lia. discriminate.
Qed.

Lemma speed_overflows a0 t c : zlen a0 = 16 -> zlen t = NTESTS ->
  speed_test clk a0 16 (speed 16 ModelRed.ntt_red_ct_rev2std shoup_sred_ntt16_12289) t c = Err SignedOverflow.
Proof.
  intros La0 Ht. unfold speed_test. change (16 <=? 12289) with true. cbn [cassert bind].
  destruct (fill_ok 16 a0 (fun i => i) (fun i a => wr a i (to_i32 i))) as (a & E & La & Va).
  - lia.
  - exact La0.
  - intros i b Hi _. rewrite to_i32_small by lia. reflexivity.
  - assert (Ea : a = a16).
    { apply (list_ext a a16 16); [exact La|reflexivity|]. intros i Hi. rewrite Va by exact Hi. unfold a16, at_.
      rewrite (nth_indep _ 0 (Z.of_nat 0)) by (cbn; lia). rewrite map_nth, seq_nth by lia. lia. }
    rewrite E. cbn [bind]. subst a.
    assert (HN := NTESTS_range). assert (HN12 : 12 <= NTESTS) by discriminate.
    fold f16.
    match goal with |- (do _ <- loop NTESTS ?B ?s0; _) = _ =>
      assert (X : loop NTESTS B s0 = Err SignedOverflow) end.
    { match goal with |- loop NTESTS ?B ?s0 = _ =>
        apply (loop_err (fun i (s : list Z * list Z * Z) => zlen (fst (fst s)) = NTESTS
          /\ times f16 (Z.to_nat i) a16 = Ok (snd (fst s))) NTESTS 11 SignedOverflow B s0) end.
      + split; [discriminate|lia].
      + exact (proj2 HN).
      + cbn [fst snd]. split; [exact Ht|reflexivity].
      + intros i [[u b] d] Hi (Lu & Pb). cbn [fst snd] in *. rewrite wr_ok by lia. cbn [bind].
        destruct (eleven_calls i b Hi Pb) as [q Eq]. change (speed 16 _ _ b) with (f16 b). rewrite Eq. cbn [bind]. eexists.
        split; [reflexivity|]. cbn [fst snd]. rewrite aset_len. split; [exact Lu|].
        replace (Z.to_nat (i + 1)) with (S (Z.to_nat i)) by lia. cbn [times]. rewrite Pb. exact Eq.
      + intros [[u b] d] (Lu & Pb). cbn [fst snd] in *. rewrite wr_ok by lia. cbn [bind].
        destruct twelve_calls as (b' & Eb & Fb). change (Z.to_nat 11) with 11%nat in Pb. rewrite Eb in Pb.
        injection Pb as <-. change (speed 16 _ _ b') with (f16 b'). rewrite Fb. reflexivity. }
    rewrite X. reflexivity.
Qed.

Lemma main_overflows : main clk stk = Err SignedOverflow.
Proof.
  unfold main. rewrite tests16_ok, tests128_ok, tests256_ok, tests512_ok, tests1024_ok, tests2048_ok. cbn [bind].
  unfold speed_tests16. rewrite speed_overflows; [reflexivity|apply Hstk; lia|].
  unfold zlen. rewrite repeat_length. apply Z2Nat.id. exact (proj1 NTESTS_range).
Qed.
End Program.

Lemma test_ntt_red_tests_pass_L :
  forall stk, (forall c n, 0 <= n -> zlen (stk c n) = n) ->
  tests16 stk = Ok tt /\ tests128 stk = Ok tt /\ tests256 stk = Ok tt /\ tests512 stk = Ok tt
  /\ tests1024 stk = Ok tt /\ tests2048 stk = Ok tt.
Proof.
  intros stk H. repeat split; [apply tests16_ok|apply tests128_ok|apply tests256_ok|apply tests512_ok|apply tests1024_ok
    |apply tests2048_ok]; exact H.
Qed.

Lemma test_ntt_red_bitrev_L :
  (forall a, zlen a = 128 -> bitrev_shuffle128 a = ModelNtt.bitrev_shuffle a 128)
  /\ (forall a, zlen a = 256 -> bitrev_shuffle256 a = ModelNtt.bitrev_shuffle a 256)
  /\ (forall a, zlen a = 512 -> bitrev_shuffle512 a = ModelNtt.bitrev_shuffle a 512)
  /\ (forall a, zlen a = 1024 -> bitrev_shuffle1024 a = ModelNtt.bitrev_shuffle a 1024)
  /\ (forall a, zlen a = 2048 -> bitrev_shuffle2048 a = ModelNtt.bitrev_shuffle a 2048).
Proof. split; [exact shuffle128_ok|]. split; [exact shuffle256_ok|]. split; [exact shuffle512_ok|]. split; [exact shuffle1024_ok|]. exact shuffle2048_ok. Qed.
