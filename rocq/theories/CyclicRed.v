(** Products modulo X^n - 1 with the Longa-Naehrig transforms. *)

From Coq Require Import ZArith List Bool Lia Setoid Morphisms.
From Verif Require Import CSem Spec Loops ModQ Conv HeapElem TransformGen Forms TableSpec ModelGen ModelProducts ProdGen NttElem ModelRed
  RedElem RedBfly RedTransforms RedRange ProdRed ModelAvx ModelAvxProd AvxArrays AvxNttFinal AvxProd ModelCyclic Cyclic ModelCyclicRed.
Import ListNotations.
Open Scope Z_scope.

Lemma ct_back_scalar : forallb (fun m => 12288 * ctb 12413 m <=? 8796042698752) (seq 0 11) = true.
Proof. vm_compute. reflexivity. Qed.
Lemma gs_back_scalar_last : forallb (fun m => can_mul 12288 (gs_last (gsb (-130, 12413) m))) (seq 0 10) = true.
Proof. vm_compute. reflexivity. Qed.

Lemma ct_out_scalar k v : 1 <= k <= 10 -> rng (ct_lo 12413) (ct_hi 12413) k v -> mulin 12288 v.
Proof.
  intros Hk Hv. assert (HB := check_seq _ _ ct_back_scalar (Z.to_nat k) ltac:(lia)). cbv beta in HB.
  unfold rng, ct_lo, ct_hi in Hv. unfold mulin. lia.
Qed.
Lemma gsp_out_scalar k v : 1 <= k <= 10 ->
  rng (gsp_lo (-130, 12413) k) (gsp_hi (-130, 12413) k) 0 v -> mulin 12288 v.
Proof.
  intros Hk Hv. assert (Hm : (Z.to_nat (k - 1) < 10)%nat) by lia.
  assert (HB := check_seq _ _ gs_back_scalar_last _ Hm). cbv beta in HB.
  unfold rng, gsp_lo, gsp_hi in Hv. cbn [Z.leb Z.compare] in Hv.
  destruct (gs_last _) as [lo hi]. cbn [fst snd] in Hv. unfold can_mul in HB. unfold mulin. lia.
Qed.

(** An inverse transform on [twice] values whose results can be multiplied by the scaling factor. *)
Definition back_ok (k q : Z) (f : list Z -> res (list Z)) : Prop :=
  forall x, zlen x = 2 ^ k -> (forall i, 0 <= i < 2 ^ k -> twice (at_ x i)) ->
  exists r, f x = Ok r /\ zlen r = 2 ^ k /\ (forall j, 0 <= j < 2 ^ k ->
    eqQ (at_ r j) (NTT (2 ^ k) (q ^ 2) (fun i => at_ x (bitrev k i)) j) /\ mulin 12288 (at_ r j)).

(** The transforms with any table of powers *)
Section Tab.
Variables (k q : Z) (p : list Z).
Hypothesis Hk : 1 <= k <= 10.
Hypothesis Hq : eqQ (q ^ (2 ^ k)) (-1).
Hypothesis H2 : all_in (-6144) 6144 p.
Let n := 2 ^ k.
Let Hk31 : 0 <= k <= 31.
Proof. lia. Qed.
Let root : 0 < k -> eqQ ((q ^ 2) ^ (2 ^ (k - 1))) (-1).
Proof. apply omega_root, Hq. Qed.
Let tab_range f : table_at k p f -> forall i, 1 <= i < 2 ^ k -> -6144 <= at_ p i <= 6144.
Proof. intros [HL _] i Hi. apply all_in_at; [exact H2|lia]. Qed.

Lemma fw_ct : omega_table_rev k (q ^ 2) 8193 p -> std2rev_ok k q (fun a => ntt_red_ct_std2rev a n p).
Proof.
  intros H1. assert (H3 := tab_range _ H1). intros x HL Hx.
  destruct (ntt_red_ct_std2rev_spec k (q ^ 2) x _ (ct_lo 30717) (ct_hi 30717) Hk31 root H1 H3)
    as (r & E & L & R); [|exact HL| |].
  - intros l Hl. apply (ct_grow_ok _ 11); [exact ct_in|clear -Hl Hk; lia].
  - intros i Hi. specialize (Hx i Hi). unfold mid in Hx. unfold rng, ct_lo, ct_hi. cbn. lia.
  - exists r. split; [exact E|]. split; [exact L|]. intros j Hj. destruct (R j Hj) as [Ra Rb].
    split; [exact Ra|]. apply (ct_out_w32 _ k _ ct_in Hk Rb).
Qed.

Lemma fw_gs : omega_table k (q ^ 2) 8193 p -> std2rev_ok k q (fun a => ntt_red_gs_std2rev a n p).
Proof.
  intros H1. assert (H3 := tab_range _ H1). intros x HL Hx.
  destruct (ntt_red_gs_std2rev_spec k (q ^ 2) x _ (gsp_lo (-18432, 30717) k) (gsp_hi (-18432, 30717) k)
     Hk31 root H1 H3) as (r & E & L & R); [| |exact HL| |].
  - intros l Hl. apply (gsp_grow0_ok _ 9); [exact gs_in9|exact gs_in_last|clear -Hk; lia|clear -Hl; lia].
  - intros l Hl. apply (gsp_grow_ok _ 9); [exact gs_in9|clear -Hk; lia|clear -Hl; lia].
  - intros i Hi. specialize (Hx i Hi). unfold mid in Hx. unfold rng, gsp_lo, gsp_hi, gs_lo, gs_hi.
    replace (k <=? 0) with false by lia. rewrite Z.sub_diag. cbn. lia.
  - exists r. split; [exact E|]. split; [exact L|]. intros j Hj. destruct (R j Hj) as [Ra Rb].
    split; [exact Ra|]. exact (gsp_out_w32 _ k _ gs_in_last Hk Rb).
Qed.

Lemma bk_ct : omega_table k (q ^ 2) 8193 p -> back_ok k q (fun a => ntt_red_ct_rev2std a n p).
Proof.
  intros H1. assert (H3 := tab_range _ H1). intros x HL Hx.
  destruct (ntt_red_ct_rev2std_spec k (q ^ 2) x _ (ct_lo 12413) (ct_hi 12413) Hk31 root H1 H3)
    as (r & E & L & R); [|exact HL| |].
  - intros l Hl. apply (ct_grow_ok _ 11); [exact ct_back|clear -Hl Hk; lia].
  - intros i Hi. specialize (Hx i Hi). unfold twice in Hx. unfold rng, ct_lo, ct_hi. cbn. lia.
  - exists r. split; [exact E|]. split; [exact L|]. intros j Hj. destruct (R j Hj) as [Ra Rb].
    split; [exact Ra|]. exact (ct_out_scalar k _ Hk Rb).
Qed.

Lemma bk_gs : omega_table_rev k (q ^ 2) 8193 p -> back_ok k q (fun a => ntt_red_gs_rev2std a n p).
Proof.
  intros H1. assert (H3 := tab_range _ H1). intros x HL Hx.
  destruct (ntt_red_gs_rev2std_spec k (q ^ 2) x _ (gsp_lo (-130, 12413) k) (gsp_hi (-130, 12413) k)
     Hk31 root H1 H3) as (r & E & L & R); [| |exact HL| |].
  - intros l Hl. apply (gsp_grow0_ok _ 9); [exact gs_back9|exact gs_back_last|clear -Hk; lia|clear -Hl; lia].
  - intros l Hl. apply (gsp_grow_ok _ 9); [exact gs_back9|clear -Hk; lia|clear -Hl; lia].
  - intros i Hi. specialize (Hx i Hi). unfold twice in Hx. unfold rng, gsp_lo, gsp_hi, gs_lo, gs_hi.
    replace (k <=? 0) with false by lia. rewrite Z.sub_diag. cbn. lia.
  - exists r. split; [exact E|]. split; [exact L|]. intros j Hj. destruct (R j Hj) as [Ra Rb].
    split; [exact Ra|]. exact (gsp_out_scalar k _ Hk Rb).
Qed.

(** The AVX2 transforms *)
Hypothesis Hk4 : 4 <= k.
Let Hk4' : 4 <= k <= 31.
Proof. lia. Qed.
Let t16 : all_in (- 2 ^ 15) (2 ^ 15 - 1) p.
Proof. apply (all_in_weak _ _ _ _ _ H2); lia. Qed.
Let unit : omega_table k (q ^ 2) 8193 p -> forall c, 0 <= c < k -> at_ p (2 ^ c) = -4096.
Proof. intros H. apply (omega_unit k (q ^ 2) p H). intros i Hi. apply all_in_at; [exact H2|]. rewrite (proj1 H). lia. Qed.
Let unit_rev : omega_table_rev k (q ^ 2) 8193 p -> forall c, 0 <= c < k -> at_ p (2 ^ c) = -4096.
Proof. intros H. apply (omega_rev_unit k (q ^ 2) p H). intros i Hi. apply all_in_at; [exact H2|]. rewrite (proj1 H). lia. Qed.

Lemma fx_ct : omega_table_rev k (q ^ 2) 8193 p -> std2rev_ok k q (fun a => ntt_red_ct_std2rev_asm a n p).
Proof.
  intros H1 x HL Hx. destruct (fw_ct H1 x HL Hx) as (r & E & X). exists r. split; [|exact X].
  apply (ntt_red_ct_std2rev_eq k x); auto. rewrite (proj1 H1). lia.
Qed.
Lemma fx_gs : omega_table k (q ^ 2) 8193 p -> std2rev_ok k q (fun a => ntt_red_gs_std2rev_asm a n p).
Proof.
  intros H1 x HL Hx. destruct (fw_gs H1 x HL Hx) as (r & E & X). exists r. split; [|exact X].
  apply (ntt_red_gs_std2rev_eq k x); auto. rewrite (proj1 H1). lia.
Qed.
Lemma bx_ct : omega_table k (q ^ 2) 8193 p -> back_ok k q (fun a => ntt_red_ct_rev2std_asm a n p).
Proof.
  intros H1 x HL Hx. destruct (bk_ct H1 x HL Hx) as (r & E & X). exists r. split; [|exact X].
  apply (ntt_red_ct_rev2std_eq k x); auto. rewrite (proj1 H1). lia.
Qed.
Lemma bx_gs : omega_table_rev k (q ^ 2) 8193 p -> back_ok k q (fun a => ntt_red_gs_rev2std_asm a n p).
Proof.
  intros H1 x HL Hx. destruct (bk_gs H1 x HL Hx) as (r & E & X). exists r. split; [|exact X].
  apply (ntt_red_gs_rev2std_eq k x); auto. rewrite (proj1 H1). lia.
Qed.
End Tab.

Section P.
Variables (k psi psii s8 : Z).
Hypothesis Hk : 1 <= k <= 10.
Hypothesis Hpsi : eqQ (psi ^ (2 ^ k)) (-1).
Hypothesis Hinv : eqQ (psi * psii) 1.
Hypothesis Hs8 : eqQ (3 ^ 8 * 2 ^ k * s8) 1.
Let n := 2 ^ k.
Let omega_k : 0 < k -> eqQ ((psi ^ 2) ^ (2 ^ (k - 1))) (-1).
Proof. apply omega_root, Hpsi. Qed.

(** The product from its steps *)
Lemma red_cyclic_gen s f1 f2 r M d g m c :
  step k s inp inp (fun _ v => v) -> std2rev_ok k psi f1 -> std2rev_ok k psi f2 ->
  step k r w32 once (fun _ v => 3 * v) -> pointwise_ok k M -> step k d w32 twice (fun _ v => 9 * v) -> back_ok k psii g ->
  step k m (mulin 12288) w32 (fun i v => 3 * (v * s8)) -> step k c twice can (fun _ v => v) ->
  forall h z a b, a <> b -> zlen (h a) = n -> zlen (h b) = n -> zlen (h z) = n ->
  (forall i, 0 <= i < n -> inp (at_ (h a) i)) -> (forall i, 0 <= i < n -> inp (at_ (h b) i)) ->
  exists h', cyclic_product (fun x => do x <- s x; do x <- f1 x; r x) (fun x => do x <- s x; do x <- f2 x; r x) M
      (fun x => do x <- d x; g x) (fun x => do x <- m x; do x <- d x; c x) h z a b = Ok h' /\ zlen (h' z) = n
    /\ (forall i, 0 <= i < n -> eqQ (at_ (h' z) i) (cyclic n (at_ (h a)) (at_ (h b)) i) /\ can (at_ (h' z) i))
    /\ (forall p, p <> a -> p <> b -> p <> z -> h' p = h p).
Proof.
  intros Hs F1 F2 Hr HM Hd Hg Hm Hc h z a b Hab La Lb Lz Pa Pb.
  assert (FW : forall f x, std2rev_ok k psi f -> zlen x = n -> (forall i, 0 <= i < n -> inp (at_ x i)) ->
    exists y, (do x <- s x; do x <- f x; r x) = Ok y /\ zlen y = n /\ forall j, 0 <= j < n ->
      eqQ (at_ y (bitrev k j)) (3 * NTT n (psi ^ 2) (at_ x) j) /\ once (at_ y j)).
  { intros f x Hf Lx Px. destruct (Hs x Lx Px) as (x1 & E1 & L1 & R1).
    destruct (Hf x1 L1) as (x2 & E2 & L2 & R2).
    { intros i Hi. assert (X := proj2 (R1 i Hi)). unfold inp in X. unfold mid. lia. }
    destruct (Hr x2 L2 (fun i Hi => proj2 (R2 i Hi))) as (x3 & E3 & L3 & R3).
    exists x3. rewrite E1. cbn [bind]. rewrite E2. cbn [bind]. split; [exact E3|]. split; [exact L3|].
    intros j Hj. split; [|apply R3, Hj]. rewrite (proj1 (R3 _ (bitrev_range k j ltac:(lia)))), (proj1 (R2 j Hj)).
    apply eqQ_mul; [reflexivity|]. apply NTT_extQ. intros i Hi. apply R1, Hi. }
  unfold cyclic_product, on.
  destruct (FW f1 (h a) F1 La Pa) as (A & EA & LA & RA). rewrite EA. cbn [bind].
  rewrite (hset_other h a A b) by congruence.
  destruct (FW f2 (h b) F2 Lb Pb) as (B & EB & LB & RB). rewrite EB. cbn [bind].
  set (h2 := hset (hset h a A) b B).
  assert (Ea : h2 a = A) by (unfold h2; rewrite hset_other by congruence; apply hset_same).
  assert (Eb : h2 b = B) by (unfold h2; apply hset_same).
  assert (Lz2 : zlen (h2 z) = n).
  { destruct (Z.eq_dec z b) as [->|Nb]; [rewrite Eb; exact LB|].
    destruct (Z.eq_dec z a) as [->|Na]; [rewrite Ea; exact LA|].
    unfold h2. rewrite !hset_other by assumption. exact Lz. }
  destruct (HM h2 z a b) as (h3 & E3 & L3 & R3 & O3).
  { fold n. rewrite Lz2. apply Z.le_refl. } { fold n. rewrite Ea, LA. apply Z.le_refl. } { fold n. rewrite Eb, LB. apply Z.le_refl. }
  { intros i Hi. rewrite Ea, Eb. split; [apply RA, Hi|apply RB, Hi]. }
  rewrite E3. cbn [bind]. rewrite Ea, Eb in R3. rewrite Lz2 in L3.
  destruct (Hd (h3 z) L3 (fun i Hi => proj2 (R3 i Hi))) as (x1 & G1 & K1 & V1). rewrite G1. cbn [bind].
  destruct (Hg x1 K1 (fun i Hi => proj2 (V1 i Hi))) as (x2 & G2 & K2 & V2). rewrite G2. cbn [bind].
  rewrite hset_same.
  destruct (Hm x2 K2 (fun i Hi => proj2 (V2 i Hi))) as (x3 & G3 & K3 & V3). rewrite G3. cbn [bind].
  destruct (Hd x3 K3 (fun i Hi => proj2 (V3 i Hi))) as (x4 & G4 & K4 & V4). rewrite G4. cbn [bind].
  destruct (Hc x4 K4 (fun i Hi => proj2 (V4 i Hi))) as (x5 & G5 & K5 & V5). rewrite G5. cbn [bind].
  eexists. split; [reflexivity|]. rewrite hset_same. split; [exact K5|]. split.
  - intros i Hi. split; [|apply V5, Hi].
    rewrite (proj1 (V5 i Hi)), (proj1 (V4 i Hi)), (proj1 (V3 i Hi)), (proj1 (V2 i Hi)).
    fold n. set (cc := cyclic n (at_ (h a)) (at_ (h b))).
    assert (Q1 : eqQ (NTT n (psii ^ 2) (fun j => at_ x1 (bitrev k j)) i) (243 * NTT n (psii ^ 2) (fun j => NTT n (psi ^ 2) cc j) i)).
    { rewrite <- NTT_scale. apply NTT_extQ. intros j Hj. assert (HB := bitrev_range k j ltac:(lia)).
      rewrite (proj1 (V1 _ HB)), (proj1 (R3 _ HB)), (proj1 (RA j Hj)), (proj1 (RB j Hj)).
      transitivity (243 * (NTT n (psi ^ 2) (at_ (h a)) j * NTT n (psi ^ 2) (at_ (h b)) j)); [qring|].
      apply eqQ_mul; [reflexivity|]. symmetry. apply (ntt_cyclic_eval k psi psii); [lia|exact Hpsi|exact Hinv|lia]. }
    rewrite Q1.
    assert (Q2 : eqQ (NTT n (psii ^ 2) (fun j => NTT n (psi ^ 2) cc j) i) (n * cc i)).
    { apply (ntt_inverse k (psi ^ 2) (psii ^ 2)); [lia|exact omega_k| |exact Hi]. rewrite <- Z.pow_mul_l, Hinv. reflexivity. }
    rewrite Q2. transitivity (cc i * (3 ^ 8 * n * s8)); [qring|].
    transitivity (cc i * 1); [|rewrite Z.mul_1_r; reflexivity].
    apply eqQ_mul; [reflexivity|]. exact Hs8.
  - intros p Na Nb Nz. rewrite !hset_other by assumption. rewrite O3 by assumption.
    unfold h2. rewrite !hset_other by assumption. reflexivity.
Qed.
End P.
