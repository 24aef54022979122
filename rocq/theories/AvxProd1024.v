(** Product 1 of src/ntt_red_asm1024.c: without shift and without the reduction before the
    inverse transform. *)

From Coq Require Import ZArith List Bool Lia Setoid Morphisms.
From Verif Require Import CSem Spec Loops ModQ Conv HeapElem TransformGen Forms TableSpec ModelGen ModelProducts
  ModelAvx ModelAvxProd ModelRed ProdGen NttElem RedElem RedBfly RedTransforms RedRange ProdRed AvxArrays AvxNttFinal
  AvxProd FineBounds.
Import ListNotations.
Open Scope Z_scope.

Definition n24 : Z := 2 ^ 10.
(** Transformed and reduced arrays, and their products. *)
Definition fine (v : Z) : Prop := Z.abs v <= 19966.
Definition prod (v : Z) : Prop := Z.abs v <= 109613.

Lemma ct_prod : forallb (ct_check 109613) (seq 0 10) = true.
Proof. vm_compute. reflexivity. Qed.
Lemma ct_prod_out v : rng (ct_lo 109613) (ct_hi 109613) 10 v -> mulin 6144 v.
Proof.
  unfold rng, ct_lo, ct_hi. assert (E : 6144 * ctb 109613 (Z.to_nat 10) <=? 8796042698752 = true)
    by (vm_compute; reflexivity).
  unfold mulin. lia.
Qed.

Lemma redz_fine v : Z.abs v <= 31454208 -> fine (redz v).
Proof.
  intros H. assert (X := redz_bounds (-31454208) 31454208 v ltac:(lia)). unfold fine.
  change (31454208 / 4096) with 7679 in X. change (-31454208 / 4096) with (-7680) in X. lia.
Qed.
Lemma redz_prod x y : fine x -> fine y -> prod (redz (x * y)).
Proof.
  unfold fine. intros Hx Hy. assert (H := prod_abs 19966 19966 x y ltac:(lia) ltac:(lia)).
  apply redz_bounds in H. change (19966 * 19966) with 398641156 in H.
  change (398641156 / 4096) with 97324 in H. change (-398641156 / 4096) with (-97325) in H.
  unfold prod. lia.
Qed.

Lemma n24_le l : zlen l = 2 ^ 10 -> 2 ^ 10 <= zlen l.
Proof. intros ->. apply Z.le_refl. Qed.
Lemma abs_i32 v : Z.abs v <= 31454208 -> -2147483648 <= v <= 2147483647.
Proof. lia. Qed.
Lemma mulin_i32 v : mulin 6144 v -> -2147483648 <= v <= 2147483647.
Proof. unfold mulin. lia. Qed.
Lemma mid_abs v : mid v -> Z.abs v <= 30717.
Proof. unfold mid. lia. Qed.
Lemma weak15 p : all_in (-6144) 6144 p -> all_in (- 2 ^ 15) (2 ^ 15 - 1) p.
Proof. intros H. eapply all_in_weak; [exact H|discriminate|discriminate]. Qed.
Lemma rng1 i : 1 <= i < 2 ^ 10 -> 0 <= i < 2 ^ 10.
Proof. lia. Qed.
Lemma fine_mul x y : fine x -> fine y -> mulrange (x * y).
Proof.
  unfold fine, mulrange. intros Hx Hy. assert (H := prod_abs 19966 19966 x y ltac:(lia) ltac:(lia)). lia.
Qed.
Lemma prod_rng v : prod v -> rng (ct_lo 109613) (ct_hi 109613) 0 v.
Proof. unfold prod, rng, ct_lo, ct_hi. cbn. lia. Qed.

Section P.
Variables (psi : Z) (T : red_tables).
Hypothesis Hp14 : psi = 1014.
Hypothesis Hpsi : eqQ (psi ^ (2 ^ 10)) (-1).
Hypothesis HT : red_tables_ok 10 psi T.
Let psii := r_inv_psi T.
Let Hk : 1 <= 10 <= 10.
Proof. lia. Qed.
Let Hk4 : 4 <= 10 <= 10.
Proof. lia. Qed.
Let H16 : mult16 n24.
Proof. apply mult16_pow, Hk4. Qed.
Let Hn32 : 0 <= n24 < 4294967296.
Proof. unfold n24. lia. Qed.
Let Hinv : eqQ (psi * psii) 1.
Proof. apply HT. Qed.
Let Hwi : eqQ (r_inv_omega T) (psii ^ 2).
Proof. eapply inv_sq; [apply HT|exact Hinv|apply HT]. Qed.
Let iroot_n : eqQ (psii ^ (2 ^ 10)) (-1).
Proof. eapply psi_inv_root; eauto; clear; lia. Qed.
Let iroot : 0 < 10 -> eqQ ((psii ^ 2) ^ (2 ^ (10 - 1))) (-1).
Proof. apply omega_root, iroot_n. Qed.

Lemma fwd24 x : zlen x = n24 -> (forall i, 0 <= i < n24 -> inp (at_ x i)) ->
  exists r, runs [(fun x => mul_reduce_array16_asm x n24 (red_psi_powers T)); x_ct_std2rev n24 T;
                  (fun x => reduce_array_asm x n24)] x = Ok r
    /\ zlen r = n24 /\ (forall j, 0 <= j < n24 ->
     eqQ (at_ r (bitrev 10 j)) (3 * NTT n24 (psi ^ 2) (fun i => at_ x i * psi ^ i) j) /\ fine (at_ r j)).
Proof.
  intros HL Hx.
  destruct (sx_mulpsi 10 psi T Hk4 HT x HL Hx) as (x1 & E1 & L1 & R1).
  assert (M1 : forall i, 0 <= i < n24 -> mid (at_ x1 i)) by (intros i Hi; apply R1, Hi).
  destruct (r_ct_std2rev_ok 10 psi T Hk Hpsi HT x1 L1 M1) as (x2 & E2 & L2 & R2).
  destruct (rok_omega_powers_rev _ _ _ HT) as [H1 H2].
  assert (HR : forall i, 1 <= i < 1024 -> -6144 <= at_ (red_omega_powers_rev T) i <= 6144).
  { intros i Hi. apply all_in_at; [exact H2|]. rewrite (proj1 H1). apply rng1, Hi. }
  assert (E2' : x_ct_std2rev n24 T x1 = Ok x2).
  { apply (ntt_red_ct_std2rev_eq 10 x1); auto; try (clear; lia).
    - apply n24_le, H1.
    - apply weak15, H2.
    - apply (omega_rev_unit 10 _ _ H1). exact HR. }
  assert (B2 : forall i, 0 <= i < 1024 -> Z.abs (at_ x2 i) <= 31454208).
  { apply (ct_std2rev_fine (red_omega_powers_rev T) x1); auto.
    - rewrite <- Hp14. apply (omega_table_rev_root _ _ _ _ _ (proj1 (rok_omega _ _ _ HT))) in H1. exact H1.
    - intros i Hi. apply mid_abs, M1, Hi. }
  assert (W2 : all_in (-2147483648) 2147483647 x2).
  { apply (at_all_in x2 n24); [exact L2|]. intros i Hi. apply abs_i32, B2, Hi. }
  destruct (reduce_array_spec x2 n24) as (x3 & E3 & L3 & R3 & _); [exact Hn32|rewrite L2; apply Z.le_refl| |].
  { intros i Hi. apply abs_i32, B2, Hi. }
  assert (E3' := proj1 (reduce_array_same x2 n24 x3 H16 W2 E3)).
  exists x3. cbn [runs]. cbv beta in E1. change (2 ^ 10) with n24 in E1. rewrite E1. cbn [bind]. rewrite E2'. cbn [bind].
  rewrite E3'. split; [reflexivity|]. split; [rewrite L3; exact L2|]. intros j Hj. split.
  - rewrite R3 by (apply (bitrev_range 10); clear; lia). rewrite redz_cong, (proj1 (R2 j Hj)).
    apply eqQ_mul; [reflexivity|]. apply NTT_extQ. intros i Hi. apply R1, Hi.
  - rewrite R3 by exact Hj. apply redz_fine, B2, Hj.
Qed.

Lemma mul24 h c a b : n24 <= zlen (h c) -> n24 <= zlen (h a) -> n24 <= zlen (h b) ->
  (forall i, 0 <= i < n24 -> fine (at_ (h a) i) /\ fine (at_ (h b) i)) ->
  exists h', mul_reduce_array_asm_h h c n24 a b = Ok h' /\ zlen (h' c) = zlen (h c)
    /\ (forall i, 0 <= i < n24 -> eqQ (at_ (h' c) i) (3 * (at_ (h a) i * at_ (h b) i)) /\ prod (at_ (h' c) i))
    /\ (forall p, p <> c -> h' p = h p).
Proof.
  intros Lc La Lb HB.
  destruct (mul_reduce_array_h_spec n24 h c a b Hn32 Lc La Lb) as (h' & E & L & R & _ & O).
  { intros i Hi. apply fine_mul; apply HB, Hi. }
  destruct (mul_reduce_array_h_same h c n24 a b h' H16 E) as (g & Eg & Hg).
  exists g. split; [exact Eg|]. rewrite !Hg. split; [exact L|]. split.
  - intros i Hi. rewrite R by exact Hi. split; [apply redz_cong|]. apply redz_prod; apply HB, Hi.
  - intros p Hp. rewrite Hg. apply O, Hp.
Qed.

Lemma scaled_var : step 10 (fun x => mul_reduce_array16_asm x n24 (red_scaled_inv_psi_powers_var T))
  (mulin 6144) w32 (fun i v => 3 * (v * (rescale6 T * psii ^ i))).
Proof.
  intros x HL Hx. destruct (rok_scaled_var _ _ _ HT) as [HP HR].
  assert (RP : forall i, 0 <= i < n24 -> -6144 <= at_ (red_scaled_inv_psi_powers_var T) i <= 6144).
  { intros i Hi. apply all_in_at; [exact HR|]. rewrite (proj1 HP). exact Hi. }
  assert (PR : forall i, 0 <= i < n24 -> mulrange (at_ x i * at_ (red_scaled_inv_psi_powers_var T) i)).
  { intros i Hi. apply mulin_table; [apply Hx|apply RP]; exact Hi. }
  destruct (mul_reduce_array16_spec x n24 (red_scaled_inv_psi_powers_var T)) as (r & E & L & R & _);
    [exact Hn32|rewrite HL; apply Z.le_refl|rewrite (proj1 HP); apply Z.le_refl|exact PR|].
  exists r. split.
  { cbv beta. refine (proj1 (mul_reduce_array16_same x n24 _ r H16 _ _ E)).
    - apply (at_all_in x n24); [exact HL|]. intros i Hi. apply mulin_i32, Hx, Hi.
    - exact (weak15 _ HR). }
  split; [rewrite L; exact HL|]. intros i Hi. rewrite R by exact Hi.
  split; [|apply redz_w32, PR, Hi].
  rewrite redz_cong. rewrite (proj2 HP) by exact Hi. reflexivity.
Qed.

Lemma bwd24 x A B : zlen x = n24 -> (forall i, 0 <= i < n24 -> prod (at_ x i)) ->
  (forall j, 0 <= j < n24 -> eqQ (at_ x (bitrev 10 j)) (3 * 3 * 3 *
     (NTT n24 (psi ^ 2) (fun i => A i * psi ^ i) j * NTT n24 (psi ^ 2) (fun i => B i * psi ^ i) j))) ->
  exists r, runs [x_intt_ct_rev2std n24 T;
                  (fun x => mul_reduce_array16_asm x n24 (red_scaled_inv_psi_powers_var T));
                  (fun x => reduce_array_twice_asm x n24); (fun x => correct_asm x n24)] x = Ok r
    /\ zlen r = n24 /\ (forall m, 0 <= m < n24 -> eqQ (at_ r m) (negacyclic n24 A B m) /\ can (at_ r m)).
Proof.
  intros HL Hx Hc.
  destruct (rok_inv_omega_powers _ _ _ HT) as [H1 H2].
  assert (HR : forall i, 1 <= i < 2 ^ 10 -> -6144 <= at_ (red_inv_omega_powers T) i <= 6144).
  { intros i Hi. apply all_in_at; [exact H2|]. rewrite (proj1 H1). apply rng1, Hi. }
  assert (H1' := omega_table_root _ _ _ _ _ Hwi H1).
  destruct (ntt_red_ct_rev2std_spec 10 (psii ^ 2) x _ (ct_lo 109613) (ct_hi 109613) ltac:(clear; lia) iroot H1' HR)
    as (x2 & E2 & L2 & R2); [|exact HL| |].
  { intros l Hl. apply (ct_grow_ok _ 10); [exact ct_prod|exact Hl]. }
  { intros i Hi. apply prod_rng, Hx, Hi. }
  assert (E2' : x_intt_ct_rev2std n24 T x = Ok x2).
  { apply (ntt_red_ct_rev2std_eq 10 x); auto; try (clear; lia).
    - apply n24_le, H1.
    - apply (omega_unit 10 _ _ H1). exact HR. }
  destruct (scaled_var x2 L2 (fun i Hi => ct_prod_out _ (proj2 (R2 i Hi)))) as (x3 & E3 & L3 & R3).
  destruct (sx_reduce2 10 psi T Hk4 x3 L3 (fun i Hi => proj2 (R3 i Hi))) as (x4 & E4 & L4 & R4).
  destruct (sx_correct 10 psi T Hk4 x4 L4 (fun i Hi => proj2 (R4 i Hi))) as (x5 & E5 & L5 & R5).
  cbv beta in E3, E4, E5. change (2 ^ 10) with n24 in E4, E5.
  exists x5. cbn [runs]. rewrite E2'. cbn [bind]. rewrite E3. cbn [bind].
  rewrite E4. cbn [bind]. rewrite E5. split; [reflexivity|]. split; [exact L5|].
  intros q Hq. split; [|apply R5, Hq].
  rewrite (proj1 (R5 q Hq)), (proj1 (R4 q Hq)), (proj1 (R3 q Hq)), (proj1 (R2 q Hq)).
  change (2 ^ 10) with n24.
  set (d := fun j => NTT n24 (psi ^ 2) (fun i => A i * psi ^ i) j * NTT n24 (psi ^ 2) (fun i => B i * psi ^ i) j).
  assert (E : eqQ (NTT n24 (psii ^ 2) (fun i => at_ x (bitrev 10 i)) q) (27 * NTT n24 (psii ^ 2) d q)).
  { rewrite <- NTT_scale. apply NTT_extQ. intros j Hj. rewrite Hc by exact Hj. reflexivity. }
  rewrite E.
  transitivity (NTT n24 (psii ^ 2) d q * (3 ^ 6 * rescale6 T * psii ^ q)).
  { generalize (NTT n24 (psii ^ 2) d q), (rescale6 T), (psii ^ q). clear. intros. qring. }
  rewrite <- (Z.mul_1_l (negacyclic n24 A B q)).
  eapply (unscale 10) with (s := 3 ^ 6 * rescale6 T) (psi := psi) (psii := psii);
    [clear; lia|exact Hpsi|exact Hinv| |exact Hq| |reflexivity].
  - intros j Hj. reflexivity.
  - rewrite <- (proj1 (rok_rescale6 _ _ _ HT)). generalize (rescale6 T). clear. intros. qring.
Qed.

Lemma x24_product1_ok : rproduct_spec 10 (red1024_product1_asm n24 T).
Proof.
  intros h c a b.
  exact (product_ok 10 psi 3 3 _ _ _ inp fine prod can ltac:(clear; lia) fwd24 mul24 bwd24 h c a b).
Qed.
End P.
