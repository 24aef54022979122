(** The products of src/ntt{16,256,512,1024}.c. *)

From Coq Require Import ZArith List Bool Lia Setoid Morphisms.
From Verif Require Import CSem Spec Loops ModQ Conv HeapElem TransformGen Forms TableSpec
  ModelGen ModelProducts ProdGen NttElem NttTransforms.
From Verif Require Import ModelNtt.
Import ListNotations.
Open Scope Z_scope.

Section P.
Variables (k psi : Z) (T : tables).
Hypothesis Hk : 0 <= k <= 31.
Hypothesis Hpsi : eqQ (psi ^ (2 ^ k)) (-1).
Hypothesis HT : tables_ok k psi T.
Let n := 2 ^ k.
Let psii := t_inv_psi T.

Let Hinv : eqQ (psi * psii) 1.
Proof. apply HT. Qed.
Let Hnpos : 0 < n.
Proof. apply pow2_pos. lia. Qed.
Let Hn32 : 0 <= n < 4294967296.
Proof. assert (H := pow31 k ltac:(lia)). unfold n in *. lia. Qed.

Let root : 0 < k -> eqQ ((psi ^ 2) ^ (2 ^ (k - 1))) (-1).
Proof. apply omega_root, Hpsi. Qed.
Let iroot_n : eqQ (psii ^ (2 ^ k)) (-1).
Proof. eapply psi_inv_root; eauto; lia. Qed.
Let iroot : 0 < k -> eqQ ((psii ^ 2) ^ (2 ^ (k - 1))) (-1).
Proof. apply omega_root, iroot_n. Qed.

Let Hw : eqQ (t_omega T) (psi ^ 2).
Proof. apply HT. Qed.
Let Hwi : eqQ (t_inv_omega T) (psii ^ 2).
Proof. eapply inv_sq; [exact Hw|exact Hinv|apply HT]. Qed.

Let tab_range p f : table_at k p f -> all_in 0 (Q - 1) p -> forall i, 1 <= i < n -> can (at_ p i).
Proof.
  intros [HL _] HA i Hi. apply all_in_at with (i := i) in HA; [|unfold n in *; lia].
  unfold can, Q in *. lia.
Qed.
Let pow_range x y p : power_table (2 ^ k) x y p -> all_in 0 (Q - 1) p ->
  zlen p = n /\ forall i, 0 <= i < n -> can (at_ p i).
Proof.
  intros [HL _] HA. split; [exact HL|]. intros i Hi.
  apply all_in_at with (i := i) in HA; [|unfold n in *; lia]. unfold can, Q in *. lia.
Qed.

(** Multiplication by the powers of psi. *)
Lemma n_mulpsi x : zlen x = n -> (forall i, 0 <= i < n -> can (at_ x i)) ->
  exists r, mul_array16 x n (psi_powers T) = Ok r /\ zlen r = n /\ (forall i, 0 <= i < n ->
    eqQ (at_ r i) (at_ x i * psi ^ i) /\ can (at_ r i)).
Proof.
  intros HL Hx. destruct (ok_psi_powers _ _ _ HT) as [HP HR].
  destruct (pow_range _ _ _ HP HR) as [LP RP].
  destruct (mul_array16_spec x n (psi_powers T)) as (r & E & L & R & _); [exact Hn32|rewrite HL; apply Z.le_refl|rewrite LP; apply Z.le_refl| |].
  { intros i Hi. assert (H := mul_can _ _ (Hx i Hi) ( (RP i Hi))). lia. }
  exists r. split; [exact E|]. split; [rewrite L; exact HL|]. intros i Hi. rewrite R by lia.
  split; [|apply can_mod]. rewrite eqQ_modn. rewrite (proj2 HP) by (unfold n in *; lia). qring.
Qed.

Ltac fwd tr :=
  let HL := fresh "HL" in let Hx := fresh "Hx" in intros x HL Hx;
  let r := fresh "r" in let E := fresh "E" in let L := fresh "L" in let R := fresh "R" in
  destruct (n_mulpsi x HL Hx) as (r & E & L & R);
  let r2 := fresh "r" in let E2 := fresh "E" in let L2 := fresh "L" in let R2 := fresh "R" in
  edestruct (tr k (psi ^ 2) r) as (r2 & E2 & L2 & R2);
  [exact Hk|exact root|..|
   exists r2; cbn [runs]; rewrite E; cbn [bind];
   split; [unfold n_ct_std2rev, n_gs_std2rev; unfold n in *; rewrite E2; reflexivity|];
   split; [exact L2|]; let j := fresh "j" in let Hj := fresh "Hj" in intros j Hj;
   destruct (R2 j Hj) as [R2a R2b]; split; [|exact R2b]; rewrite R2a;
   rewrite Z.mul_1_l; apply NTT_extQ; intros; apply R; assumption].

Definition fwd_ok (F : list (list Z -> res (list Z))) : Prop :=
  forall x, zlen x = n -> (forall i, 0 <= i < n -> can (at_ x i)) ->
  exists r, runs F x = Ok r /\ zlen r = n /\ (forall j, 0 <= j < n ->
     eqQ (at_ r (bitrev k j)) (1 * NTT n (psi ^ 2) (fun i => at_ x i * psi ^ i) j)
     /\ can (at_ r j)).

Lemma n_fwd_ct : fwd_ok [fun x => mul_array16 x n (psi_powers T); n_ct_std2rev n T].
Proof.
  destruct (ok_omega_powers_rev _ _ _ HT) as [H1 H2]. assert (H3 := tab_range _ _ H1 H2).
  apply (omega_table_rev_root _ _ _ _ _ Hw) in H1.
  fwd ntt_ct_std2rev_spec.
  - exact H1.
  - exact H3.
  - exact L.
  - intros i Hi. apply R, Hi.
Qed.

Lemma n_fwd_gs : fwd_ok [fun x => mul_array16 x n (psi_powers T); n_gs_std2rev n T].
Proof.
  destruct (ok_omega_powers _ _ _ HT) as [H1 H2]. assert (H3 := tab_range _ _ H1 H2).
  apply (omega_table_root _ _ _ _ _ Hw) in H1.
  fwd ntt_gs_std2rev_spec.
  - exact H1.
  - exact H3.
  - exact L.
  - intros i Hi. apply R, Hi.
Qed.

Lemma n_fwd_mul : fwd_ok [n_mulntt_ct_std2rev n T].
Proof.
  destruct (ok_mixed_rev _ _ _ HT) as [H1 H2]. assert (H3 := tab_range _ _ H1 H2).
  intros x HL Hx.
  edestruct (mulntt_ct_std2rev_spec k psi x) as (r & E & L & R);
    [exact Hk|exact Hpsi|exact H1|exact H3|exact HL|exact Hx|].
  exists r. cbn [runs]. unfold n_mulntt_ct_std2rev. unfold n in *. rewrite E.
  split; [reflexivity|]. split; [exact L|]. intros j Hj. destruct (R j Hj) as [Ra Rb].
  split; [|exact Rb]. rewrite Ra. rewrite Z.mul_1_l. reflexivity.
Qed.

Definition bwd_ok (G : list (list Z -> res (list Z))) : Prop :=
  forall x A B, zlen x = n -> (forall i, 0 <= i < n -> can (at_ x i)) ->
  (forall j, 0 <= j < n -> eqQ (at_ x (bitrev k j)) (1 * 1 * 1 *
     (NTT n (psi ^ 2) (fun i => A i * psi ^ i) j * NTT n (psi ^ 2) (fun i => B i * psi ^ i) j))) ->
  exists r, runs G x = Ok r /\ zlen r = n /\ (forall m, 0 <= m < n ->
     eqQ (at_ r m) (negacyclic n A B m) /\ can (at_ r m)).

Let inv_n_ok : eqQ (t_inv_n T * n) 1 /\ can (t_inv_n T).
Proof.
  destruct (ok_inv_n _ _ _ HT) as [H1 H2]. rewrite Z.mul_comm.
  split; [exact H1|]. exact H2.
Qed.

Lemma n_unscale r : zlen r = n -> (forall i, 0 <= i < n -> can (at_ r i)) ->
  exists r', mul_array16 r n (scaled_inv_psi_powers T) = Ok r' /\ zlen r' = n
    /\ (forall i, 0 <= i < n -> eqQ (at_ r' i) (at_ r i * (t_inv_n T * psii ^ i))
         /\ can (at_ r' i)).
Proof.
  intros HL Hr. destruct (ok_scaled _ _ _ HT) as [HP HR].
  destruct (pow_range _ _ _ HP HR) as [LP RP].
  destruct (mul_array16_spec r n (scaled_inv_psi_powers T)) as (r' & E & L & R & _);
    [exact Hn32|rewrite HL; apply Z.le_refl|rewrite LP; apply Z.le_refl| |].
  { intros i Hi. assert (H := mul_can _ _ (Hr i Hi) ( (RP i Hi))). lia. }
  exists r'. split; [exact E|]. split; [rewrite L; exact HL|]. intros i Hi. rewrite R by lia.
  split; [|apply can_mod]. rewrite eqQ_modn. rewrite (proj2 HP) by (unfold n in *; lia). reflexivity.
Qed.

Ltac bwd E R :=
  let r2 := fresh "r" in let E2 := fresh "E" in let L2 := fresh "L" in let R2 := fresh "R" in
  match goal with r : list Z, L : zlen ?r = 2 ^ k |- _ =>
    destruct (n_unscale r L (fun i Hi => proj2 (R i Hi))) as (r2 & E2 & L2 & R2) end; unfold n in *;
  exists r2; cbn [runs]; unfold n_intt_ct_rev2std, n_intt_gs_rev2std; rewrite E; cbn [bind];
  rewrite E2; split; [reflexivity|]; split; [exact L2|]; intros m Hm;
  destruct (R2 m Hm) as [R2a R2b]; split; [|exact R2b]; rewrite R2a; rewrite (proj1 (R m Hm));
  rewrite <- (Z.mul_1_l (negacyclic _ _ _ _));
  eapply unscale; [lia|exact Hpsi|exact Hinv| |exact Hm|apply inv_n_ok|reflexivity].

Lemma n_bwd_ct : bwd_ok [n_intt_ct_rev2std n T; fun x => mul_array16 x n (scaled_inv_psi_powers T)].
Proof.
  destruct (ok_inv_omega_powers _ _ _ HT) as [H1 H2]. assert (H3 := tab_range _ _ H1 H2).
  apply (omega_table_root _ _ _ _ _ Hwi) in H1.
  intros x A B HL Hx Hc.
  destruct (ntt_ct_rev2std_spec k (psii ^ 2) x _ Hk iroot H1 H3 HL Hx) as (r & E & L & R).
  fold n in E, R, L. unfold n in *. bwd E R.
  intros j Hj. rewrite Hc by exact Hj. qring.
Qed.

Lemma n_bwd_gs : bwd_ok [n_intt_gs_rev2std n T; fun x => mul_array16 x n (scaled_inv_psi_powers T)].
Proof.
  destruct (ok_inv_omega_powers_rev _ _ _ HT) as [H1 H2]. assert (H3 := tab_range _ _ H1 H2).
  apply (omega_table_rev_root _ _ _ _ _ Hwi) in H1.
  intros x A B HL Hx Hc.
  destruct (ntt_gs_rev2std_spec k (psii ^ 2) x _ Hk iroot H1 H3 HL Hx) as (r & E & L & R).
  unfold n in *. bwd E R.
  intros j Hj. rewrite Hc by exact Hj. qring.
Qed.

Lemma n_bwd_mul : bwd_ok [n_inttmul_gs_rev2std n T; fun x => scalar_mul_array x n (t_inv_n T)].
Proof.
  destruct (ok_inv_mixed_rev _ _ _ HT) as [H1 H2]. assert (H3 := tab_range _ _ H1 H2).
  intros x A B HL Hx Hc.
  destruct (nttmul_gs_rev2std_spec k psii x _ Hk iroot_n H1 H3 HL Hx) as (r & E & L & R).
  destruct inv_n_ok as [I1 I2].
  destruct (scalar_mul_array_spec r n (t_inv_n T)) as (r2 & E2 & L2 & R2 & _);
    [exact Hn32|rewrite L; apply Z.le_refl| |].
  { intros i Hi. assert (H := mul_can _ _ (proj2 (R i Hi)) ( I2)). lia. }
  exists r2. cbn [runs]. unfold n_inttmul_gs_rev2std. unfold n in *. rewrite E. cbn [bind].
  rewrite E2. split; [reflexivity|]. split; [rewrite L2; exact L|]. intros m Hm. rewrite R2 by exact Hm.
  split; [|apply can_mod]. rewrite eqQ_modn. rewrite (proj1 (R m Hm)).
  rewrite <- (Z.mul_1_l (negacyclic _ _ _ _)).
  eapply unscale_mixed; [lia|exact Hpsi|exact Hinv| |exact Hm|exact I1].
  intros j Hj. rewrite Hc by exact Hj. qring.
Qed.

Definition product_spec (f : heap -> Z -> Z -> Z -> res heap) : Prop :=
  forall h c a b, a <> b -> zlen (h a) = n -> zlen (h b) = n -> zlen (h c) = n ->
  (forall i, 0 <= i < n -> can (at_ (h a) i)) -> (forall i, 0 <= i < n -> can (at_ (h b) i)) ->
  exists h', f h c a b = Ok h' /\ zlen (h' c) = n
    /\ (forall m, 0 <= m < n ->
         eqQ (at_ (h' c) m) (negacyclic n (at_ (h a)) (at_ (h b)) m) /\ can (at_ (h' c) m))
    /\ (forall p, p <> a -> p <> b -> p <> c -> h' p = h p).

Lemma n_prod F G : fwd_ok F -> bwd_ok G ->
  product_spec (product F G (fun h c a b => mul_array_h h c n a b)).
Proof.
  intros HF HG h c a b. apply (product_ok k psi 1 1 F G _ can can can can); [lia|exact HF| |exact HG].
  clear h c a b. intros h c a b Lc La Lb HB.
  destruct (mul_array_h_spec n h c a b Hn32 Lc La Lb HB) as (h' & E & L & R & _ & O).
  exists h'. split; [exact E|]. split; [exact L|]. split; [|exact O].
  intros i Hi. rewrite R by exact Hi. split; [rewrite eqQ_modn; qring|apply can_mod].
Qed.

Lemma n_product1_ok : product_spec (ntt_product1 n T).
Proof. exact (n_prod _ _ n_fwd_ct n_bwd_ct). Qed.
Lemma n_product2_ok : product_spec (ntt_product2 n T).
Proof. exact (n_prod _ _ n_fwd_gs n_bwd_ct). Qed.
Lemma n_product3_ok : product_spec (ntt_product3 n T).
Proof. exact (n_prod _ _ n_fwd_ct n_bwd_gs). Qed.
Lemma n_product4_ok : product_spec (ntt_product4 n T).
Proof. exact (n_prod _ _ n_fwd_gs n_bwd_gs). Qed.
Lemma n_product5_ok : product_spec (ntt_product5 n T).
Proof. exact (n_prod _ _ n_fwd_mul n_bwd_mul). Qed.
End P.
