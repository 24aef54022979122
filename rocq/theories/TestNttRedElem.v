(** The functions tested by src/test_ntt_red.c are linear modulo Q for every table of
    constants in -6144 .. 6144. *)

From Coq Require Import ZArith List Bool Lia Setoid Morphisms.
From Verif Require Import CSem Spec Loops ModQ RedElem RedBfly RedRange ElemFinal Gs2048Final ModelTests
  Shuffle LinRed BasisElem ModelTestNttRed.
From Verif Require ModelRed ModelNtt.
Import Spec.
Import ListNotations.
Open Scope Z_scope.

(** The transforms of the two forms *)
Definition r2s_transforms := [ModelRed.ntt_red_ct_rev2std; ModelRed.ntt_red_gs_rev2std;
  ModelRed.mulntt_red_ct_rev2std; ModelRed.nttmul_red_gs_rev2std].
Definition s2r_transforms := [ModelRed.ntt_red_ct_std2rev; ModelRed.ntt_red_gs_std2rev;
  ModelRed.mulntt_red_ct_std2rev; ModelRed.nttmul_red_gs_std2rev].

Section Linear.
Variables (k : Z) (p : list Z).
Hypothesis Hk : 1 <= k <= 11.
Hypothesis Lp : zlen p = 2 ^ k.
Hypothesis Ip : all_in (-6144) 6144 p.
Let n := 2 ^ k.
Let Hk31 : 0 <= k <= 31.
Proof. lia. Qed.
Let Hk0 : 0 <= k.
Proof. lia. Qed.
Let Hn : 2 <= n <= 2048.
Proof. unfold n. change 2 with (2 ^ 1) at 1. change 2048 with (2 ^ 11). split; apply Z.pow_le_mono_r; lia. Qed.
Let Hp i : 1 <= i < 2 ^ k -> -6144 <= at_ p i <= 6144.
Proof. intros Hi. apply (all_in_at (-6144) 6144); [exact Ip|lia]. Qed.

(** A transform on centred arrays *)
Definition centred_linear (T : list Z -> res (list Z)) (F : Z -> Z -> Z) : Prop :=
  forall a, zlen a = n -> all_in (-6144) 6144 a ->
  exists r, T a = Ok r /\ zlen r = n /\ all_in (- 2 ^ 31) (2 ^ 31 - 1) r
    /\ forall i, 0 <= i < n -> eqQ (at_ r i) (lin n F a i).

Lemma lin_weaken lo hi a m l F :
  lin_result k lo hi a m l F -> (forall v, rng lo hi l v -> - 2 ^ 31 <= v <= 2 ^ 31 - 1) ->
  exists r, m = Ok r /\ zlen r = n /\ all_in (- 2 ^ 31) (2 ^ 31 - 1) r
    /\ forall i, 0 <= i < n -> eqQ (at_ r i) (lin n F a i).
Proof.
  intros (r & E & Lr & H) HB. exists r. split; [exact E|]. split; [exact Lr|]. split.
  - apply all_in_of. intros i Hi. apply HB, H. rewrite <- Lr. exact Hi.
  - intros i Hi. apply H, Hi.
Qed.

Let ctG l : 0 <= l < k -> ct_grow (ct_lo 12288) (ct_hi 12288) l.
Proof. intros Hl. apply ct_grow_ok with (K := 11%nat); [apply ct_canon|lia]. Qed.
Let ctA a : zlen a = n -> all_in (-6144) 6144 a -> forall i, 0 <= i < 2 ^ k -> rng (ct_lo 12288) (ct_hi 12288) 0 (at_ a i).
Proof.
  intros La Ia i Hi. assert (X := all_in_at _ _ _ i Ia ltac:(rewrite La; exact Hi)).
  unfold rng, ct_lo, ct_hi. change (ctb 12288 (Z.to_nat 0)) with 12288. lia.
Qed.
Let ctB v : rng (ct_lo 12288) (ct_hi 12288) k v -> - 2 ^ 31 <= v <= 2 ^ 31 - 1.
Proof.
  intros X. unfold rng, ct_lo, ct_hi in X. assert (Y := check_seq _ 12 ct_canon_top (Z.to_nat k) ltac:(lia)).
  apply Z.leb_le in Y. change (2 ^ 31) with 2147483648. lia.
Qed.

Let fit : 3 ^ k * (2 * (6144 - -6144) + 12285) <= 2 ^ 33 - 24576.
Proof.
  assert (T : 3 ^ k <= 3 ^ 11) by (apply Z.pow_le_mono_r; lia). change (3 ^ 11) with 177147 in T.
  change (2 ^ 33) with 8589934592. lia.
Qed.
Let le1 : -6144 <= 6144. Proof. lia. Qed.
Let le2 : - -6144 <= 3 * 6144. Proof. lia. Qed.
Let le3 : 6144 <= 24570 - 3 * -6144. Proof. lia. Qed.
Let G l (H : 0 <= l < k) := gs_grow_fit (-6144) 6144 le1 le2 le3 k Hk0 fit l H.
Let Gp l (H : 1 <= l < k) := gsp_grow_fit (-6144) 6144 le1 le2 le3 k Hk0 fit l H.
Let Gp0 l (H : 0 <= l < k) := gsp_grow0_fit (-6144) 6144 le1 le2 le3 k Hk0 fit l H.
Let in_gs a : zlen a = n -> all_in (-6144) 6144 a ->
  forall i, 0 <= i < 2 ^ k -> rng (gs_lo (-6144, 6144) k) (gs_hi (-6144, 6144) k) k (at_ a i).
Proof.
  intros La Ia i Hi. assert (A := all_in_at (-6144) 6144 a i Ia ltac:(rewrite La; exact Hi)).
  unfold rng, gs_lo, gs_hi. rewrite Z.sub_diag. cbn. exact A.
Qed.
Let in_gsp a : zlen a = n -> all_in (-6144) 6144 a ->
  forall i, 0 <= i < 2 ^ k -> rng (gsp_lo (-6144, 6144) k) (gsp_hi (-6144, 6144) k) k (at_ a i).
Proof.
  intros La Ia i Hi. assert (A := in_gs a La Ia i Hi). unfold rng, gsp_lo, gsp_hi in *.
  replace (k <=? 0) with false by lia. exact A.
Qed.
Let gsB v : rng (gs_lo (-6144, 6144) k) (gs_hi (-6144, 6144) k) 0 v -> - 2 ^ 31 <= v <= 2 ^ 31 - 1.
Proof. intros X. apply (res_gs (-6144) 6144 le1 le2 le3 k Hk0 fit v); [lia|exact X]. Qed.
Let gspB v : rng (gsp_lo (-6144, 6144) k) (gsp_hi (-6144, 6144) k) 0 v -> - 2 ^ 31 <= v <= 2 ^ 31 - 1.
Proof. intros X. apply (res_gsp (-6144) 6144 le1 le2 le3 k Hk0 fit v); [lia|exact X]. Qed.

Lemma r2s_linear f : In f r2s_transforms -> exists F, centred_linear (fun a => f a n p) F.
Proof.
  intros [<-|[<-|[<-|[<-|[]]]]]; eexists; intros a La Ia; eapply lin_weaken.
  - apply lin_ct_rev2std with (lo := ct_lo 12288) (hi := ct_hi 12288); auto.
  - exact ctB.
  - apply lin_gs_rev2std with (lo := gsp_lo (-6144, 6144) k) (hi := gsp_hi (-6144, 6144) k); auto.
  - exact gspB.
  - apply lin_mul_ct_rev2std with (lo := ct_lo 12288) (hi := ct_hi 12288); auto.
  - exact ctB.
  - apply lin_mul_gs_rev2std with (lo := gs_lo (-6144, 6144) k) (hi := gs_hi (-6144, 6144) k); auto.
  - exact gsB.
Qed.

Lemma s2r_linear f : In f s2r_transforms -> exists F, centred_linear (fun a => f a n p) F.
Proof.
  intros [<-|[<-|[<-|[<-|[]]]]]; eexists; intros a La Ia; eapply lin_weaken.
  - apply lin_ct_std2rev with (lo := ct_lo 12288) (hi := ct_hi 12288); auto.
  - exact ctB.
  - apply lin_gs_std2rev with (lo := gsp_lo (-6144, 6144) k) (hi := gsp_hi (-6144, 6144) k); auto.
  - exact gspB.
  - apply lin_mul_ct_std2rev with (lo := ct_lo 12288) (hi := ct_hi 12288); auto.
  - exact ctB.
  - apply lin_mul_gs_std2rev with (lo := gs_lo (-6144, 6144) k) (hi := gs_hi (-6144, 6144) k); auto.
  - exact gsB.
Qed.

(** The functions under test *)
Section Wrap.
Variable shuffle : list Z -> res (list Z).
Hypothesis Hsh : forall a, zlen a = n -> shuffle a = ModelNtt.bitrev_shuffle a n.

Lemma shuffle_spec a : zlen a = n -> exists r, shuffle a = Ok r /\ zlen r = n
  /\ forall i, 0 <= i < n -> at_ r i = at_ a (bitrev k i).
Proof. intros La. rewrite Hsh by exact La. exact (bitrev_shuffle_ok k a Hk31 La). Qed.

Lemma shuffle_in l h a r : zlen a = n -> all_in l h a -> zlen r = n ->
  (forall i, 0 <= i < n -> at_ r i = at_ a (bitrev k i)) -> all_in l h r.
Proof.
  intros La Ia Lr V. apply all_in_of. intros i Hi. rewrite Lr in Hi. rewrite V by exact Hi.
  assert (B := bitrev_range k i Hk0). apply all_in_at; [exact Ia|]. rewrite La. exact B.
Qed.

Lemma shifted a : zlen a = n -> all_in 0 (Q - 1) a -> exists r, ModelRed.shift_array a n = Ok r /\ zlen r = n
  /\ all_in (-6144) 6144 r /\ forall i, 0 <= i < n -> eqQ (at_ r i) (at_ a i).
Proof.
  intros La Ia. destruct (shift_array_centred_L a n ltac:(lia) ltac:(lia) Ia) as (r & E & Lr & H & _).
  exists r. split; [exact E|]. split; [lia|]. split; [|intros i Hi; apply H, Hi].
  apply all_in_of. intros i Hi. apply H. lia.
Qed.

Lemma normalized a : zlen a = n -> all_in (- 2 ^ 31) (2 ^ 31 - 1) a -> exists r, ModelRed.normalize a n = Ok r /\ zlen r = n
  /\ forall i, 0 <= i < n -> at_ r i = at_ a i mod Q.
Proof.
  intros La Ia. destruct (normalize_canonical_L a n ltac:(lia) ltac:(lia) Ia) as (r & E & Lr & H & _).
  exists r. split; [exact E|]. split; [lia|]. exact H.
Qed.

Lemma lin_ext F a b i : (forall x, 0 <= x < n -> eqQ (at_ a x) (at_ b x)) -> eqQ (lin n F a i) (lin n F b i).
Proof. intros H. unfold lin. apply Sum_extQ. intros x Hx. rewrite H by exact Hx. reflexivity. Qed.

Lemma rev2std_linear f : In f r2s_transforms -> linear_map n (rev2std n shuffle f p).
Proof.
  intros Hf. destruct (r2s_linear f Hf) as [F HF]. exists (fun i x => F i (bitrev k x)).
  intros a La Ia. unfold rev2std.
  destruct (shifted a La Ia) as (b & -> & Lb & Ib & Vb). cbn [bind].
  destruct (shuffle_spec b Lb) as (c & -> & Lc & Vc). cbn [bind].
  destruct (HF c Lc (shuffle_in _ _ b c Lb Ib Lc Vc)) as (d & -> & Ld & Id & Vd). cbn [bind].
  destruct (normalized d Ld Id) as (r & -> & Lr & Vr). exists r. split; [reflexivity|]. split; [exact Lr|].
  intros i Hi. rewrite Vr by exact Hi. change (eqQ (at_ d i) (lin n (fun i x => F i (bitrev k x)) a i)).
  rewrite Vd by exact Hi. unfold lin.
  unfold n at 2. rewrite <- (Sum_bitrev k (fun x => F i (bitrev k x) * at_ a x) Hk0). apply Sum_extQ. intros x Hx.
  rewrite bitrev_invol, Vc by assumption. rewrite Vb by (apply bitrev_range; exact Hk0). reflexivity.
Qed.

Lemma std2rev_linear f : In f s2r_transforms -> linear_map n (std2rev n shuffle f p).
Proof.
  intros Hf. destruct (s2r_linear f Hf) as [F HF]. exists (fun i x => F (bitrev k i) x).
  intros a La Ia. unfold std2rev.
  destruct (shifted a La Ia) as (b & -> & Lb & Ib & Vb). cbn [bind].
  destruct (HF b Lb Ib) as (d & -> & Ld & Id & Vd). cbn [bind].
  destruct (normalized d Ld Id) as (c & -> & Lc & Vc). cbn [bind].
  destruct (shuffle_spec c Lc) as (r & -> & Lr & Vr). exists r. split; [reflexivity|]. split; [exact Lr|].
  intros i Hi. assert (B := bitrev_range k i Hk0). rewrite Vr, Vc by assumption.
  change (eqQ (at_ d (bitrev k i)) (lin n F a (bitrev k i))).
  rewrite Vd by exact B. apply lin_ext. exact Vb.
Qed.
End Wrap.
End Linear.
