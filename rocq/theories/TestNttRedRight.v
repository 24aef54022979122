(** The functions tested by src/test_ntt_red.c compute the NTT when their table is right.
    The functions with a scaled butterfly at index 0 too (mulntt, nttmul) are given the
    same tables there as the others. *)

From Coq Require Import ZArith List Bool Lia Setoid Morphisms.
From Verif Require Import CSem Spec Loops ModQ Stages Tower TransformGen Forms ModelRed
  RedElem RedBfly RedRange RedTransforms RedFinal ElemFinal Gs2048Final Shuffle LinRed BasisElem.
From Verif Require Import ModelTestNttRed TestNttRedElem.
Import Spec.
Import ListNotations.
Open Scope Z_scope.

Lemma mulntt_red_ct_rev2std_omega k w a p lo hi :
  0 <= k <= 31 -> (0 < k -> eqQ (w ^ (2 ^ (k - 1))) (-1)) ->
  omega_table k w 8193 p -> (forall i, 1 <= i < 2 ^ k -> -6144 <= at_ p i <= 6144) ->
  (forall l, 0 <= l < k -> ct_grow lo hi l) ->
  zlen a = 2 ^ k -> (forall i, 0 <= i < 2 ^ k -> rng lo hi 0 (at_ a i)) ->
  exists r, mulntt_red_ct_rev2std a (2 ^ k) p = Ok r /\ zlen r = 2 ^ k
    /\ (forall j, 0 <= j < 2 ^ k -> eqQ (at_ r j) (NTT (2 ^ k) w (fun i => at_ a (bitrev k i)) j) /\ rng lo hi k (at_ r j)).
Proof.
  intros Hk Hw Ht Hp Hg HL Ha. assert (Hn := pow31 k Hk).
  destruct (gen_A_up_mul k (2 ^ k) (zw k w) (rng lo hi) Hk eq_refl) with
    (body := ct_bfly_red) (p := p) (a := a)
    as (r & E & HLr & HR); auto.
  { apply tower_omega. exact Hw. }
  { exact bfly0_red. }
  { apply Ht. }
  { intros l j s Hl Hj. apply ct_bfly_red_ct; [lia | | | apply Hg; lia].
    - apply Hp. apply entry_range; lia.
    - rewrite (omega_table_z k w 8193 p Ht) by lia. apply inv3. }
  exists r. split; [exact E|]. split; [exact HLr|]. intros j Hj.
  destruct (HR j Hj) as [HE HB]. split; [|exact HB]. rewrite HE. clear HE.
  rewrite (form_ct_rev k w (at_ a)) by lia. reflexivity.
Qed.

Lemma mulntt_red_ct_std2rev_omega k w a p lo hi :
  0 <= k <= 31 -> (0 < k -> eqQ (w ^ (2 ^ (k - 1))) (-1)) ->
  omega_table_rev k w 8193 p -> (forall i, 1 <= i < 2 ^ k -> -6144 <= at_ p i <= 6144) ->
  (forall l, 0 <= l < k -> ct_grow lo hi l) ->
  zlen a = 2 ^ k -> (forall i, 0 <= i < 2 ^ k -> rng lo hi 0 (at_ a i)) ->
  exists r, mulntt_red_ct_std2rev a (2 ^ k) p = Ok r /\ zlen r = 2 ^ k
    /\ (forall j, 0 <= j < 2 ^ k -> eqQ (at_ r (bitrev k j)) (NTT (2 ^ k) w (at_ a) j) /\ rng lo hi k (at_ r j)).
Proof.
  intros Hk Hw Ht Hp Hg HL Ha. assert (Hn := pow31 k Hk).
  destruct (gen_B_up_mul k (2 ^ k) (zw k w) (rng lo hi) Hk eq_refl) with
    (body := ct_bfly_red) (p := p) (a := a)
    as (r & E & HLr & HR); auto.
  { apply tower_omega. exact Hw. }
  { exact bfly0_red. }
  { apply Ht. }
  { intros l j h s Hl Hj Hh. apply ct_bfly_red_ct; [lia | | | apply Hg; lia].
    - apply Hp. apply entry_range; lia.
    - rewrite (omega_table_rev_z k w 8193 p Ht) by lia. apply inv3. }
  exists r. split; [exact E|]. split; [exact HLr|]. intros j Hj.
  assert (R := bitrev_range k j ltac:(lia)).
  split; [|apply HR; lia].
  destruct (HR (bitrev k j) R) as [HE _]. rewrite HE. clear HE.
  rewrite (form_ct_std k w (at_ a)) by lia. reflexivity.
Qed.

Lemma nttmul_red_gs_rev2std_omega k w a p lo hi :
  0 <= k <= 31 -> (0 < k -> eqQ (w ^ (2 ^ (k - 1))) (-1)) ->
  omega_table_rev k w 8193 p -> (forall i, 1 <= i < 2 ^ k -> -6144 <= at_ p i <= 6144) ->
  (forall l, 0 <= l < k -> gs_grow lo hi l) ->
  zlen a = 2 ^ k -> (forall i, 0 <= i < 2 ^ k -> rng lo hi k (at_ a i)) ->
  exists r, nttmul_red_gs_rev2std a (2 ^ k) p = Ok r /\ zlen r = 2 ^ k
    /\ (forall j, 0 <= j < 2 ^ k -> eqQ (at_ r j) (NTT (2 ^ k) w (fun i => at_ a (bitrev k i)) j) /\ rng lo hi 0 (at_ r j)).
Proof.
  intros Hk Hw Ht Hp Hg HL Ha. assert (Hn := pow31 k Hk).
  destruct (gen_B_down_mul k (2 ^ k) (zw k w) (rng lo hi) Hk eq_refl) with
    (body := gs_bfly_red) (p := p) (a := a)
    as (r & E & HLr & HR); auto.
  { apply tower_omega. exact Hw. }
  { exact bfly0_red. }
  { apply Ht. }
  { intros l j h s Hl Hj Hh. apply gs_bfly_red_gs; [lia | | | apply Hg; lia].
    - apply Hp. apply entry_range; lia.
    - rewrite (omega_table_rev_z k w 8193 p Ht) by lia. apply inv3. }
  exists r. split; [exact E|]. split; [exact HLr|]. intros j Hj.
  destruct (HR j Hj) as [HE HB]. split; [|exact HB]. rewrite HE. clear HE.
  rewrite (form_gs_rev k w (at_ a)) by lia. reflexivity.
Qed.

Lemma nttmul_red_gs_std2rev_omega k w a p lo hi :
  0 <= k <= 31 -> (0 < k -> eqQ (w ^ (2 ^ (k - 1))) (-1)) ->
  omega_table k w 8193 p -> (forall i, 1 <= i < 2 ^ k -> -6144 <= at_ p i <= 6144) ->
  (forall l, 0 <= l < k -> gs_grow lo hi l) ->
  zlen a = 2 ^ k -> (forall i, 0 <= i < 2 ^ k -> rng lo hi k (at_ a i)) ->
  exists r, nttmul_red_gs_std2rev a (2 ^ k) p = Ok r /\ zlen r = 2 ^ k
    /\ (forall j, 0 <= j < 2 ^ k -> eqQ (at_ r (bitrev k j)) (NTT (2 ^ k) w (at_ a) j) /\ rng lo hi 0 (at_ r j)).
Proof.
  intros Hk Hw Ht Hp Hg HL Ha. assert (Hn := pow31 k Hk).
  destruct (gen_A_down_mul k (2 ^ k) (zw k w) (rng lo hi) Hk eq_refl) with
    (body := gs_bfly_red) (p := p) (a := a)
    as (r & E & HLr & HR); auto.
  { apply tower_omega. exact Hw. }
  { exact bfly0_red. }
  { apply Ht. }
  { intros l j s Hl Hj. apply gs_bfly_red_gs; [lia | | | apply Hg; lia].
    - apply Hp. apply entry_range; lia.
    - rewrite (omega_table_z k w 8193 p Ht) by lia. apply inv3. }
  exists r. split; [exact E|]. split; [exact HLr|]. intros j Hj.
  assert (R := bitrev_range k j ltac:(lia)).
  split; [|apply HR; lia].
  destruct (HR (bitrev k j) R) as [HE _]. rewrite HE. clear HE.
  rewrite (form_gs_std k w (at_ a)) by lia. reflexivity.
Qed.

Section Right.
Variables (k omega : Z) (p : list Z).
Hypothesis Hk : 1 <= k <= 11.
Hypothesis Ho : eqQ (omega ^ (2 ^ (k - 1))) (-1).
Hypothesis Lp : zlen p = 2 ^ k.
Hypothesis Ip : all_in (-6144) 6144 p.
Let n := 2 ^ k.
Let Hk31 : 0 <= k <= 31.
Proof. lia. Qed.
Let Hk0 : 0 <= k.
Proof. lia. Qed.
Let Hn : 2 <= n <= 2048.
Proof. unfold n. change 2 with (2 ^ 1) at 1. change 2048 with (2 ^ 11). split; apply Z.pow_le_mono_r; lia. Qed.
Let Hp i : 1 <= i < 2 ^ k -> -6144 <= at_ p i <= 6144.
Proof. intros Hi. apply (all_in_at (-6144) 6144); [exact Ip|lia]. Qed.
Let ctG l : 0 <= l < k -> ct_grow (ct_lo 12288) (ct_hi 12288) l.
Proof. intros Hl. apply ct_grow_ok with (K := 11%nat); [apply ct_canon|lia]. Qed.
Let ctA a : zlen a = n -> all_in (-6144) 6144 a -> forall i, 0 <= i < 2 ^ k -> rng (ct_lo 12288) (ct_hi 12288) 0 (at_ a i).
Proof.
  intros La Ia i Hi. assert (X := all_in_at _ _ _ i Ia ltac:(rewrite La; exact Hi)).
  unfold rng, ct_lo, ct_hi. change (ctb 12288 (Z.to_nat 0)) with 12288. lia.
Qed.
Let ctB v : rng (ct_lo 12288) (ct_hi 12288) k v -> - 2 ^ 31 <= v <= 2 ^ 31 - 1.
Proof.
  intros X. unfold rng, ct_lo, ct_hi in X. assert (Y := check_seq _ 12 ct_canon_top (Z.to_nat k) ltac:(lia)).
  apply Z.leb_le in Y. change (2 ^ 31) with 2147483648. lia.
Qed.

Let fit : 3 ^ k * (2 * (6144 - -6144) + 12285) <= 2 ^ 33 - 24576.
Proof.
  assert (T : 3 ^ k <= 3 ^ 11) by (apply Z.pow_le_mono_r; lia). change (3 ^ 11) with 177147 in T.
  change (2 ^ 33) with 8589934592. lia.
Qed.
Let le1 : -6144 <= 6144. Proof. lia. Qed.
Let le2 : - -6144 <= 3 * 6144. Proof. lia. Qed.
Let le3 : 6144 <= 24570 - 3 * -6144. Proof. lia. Qed.
Let G l (H : 0 <= l < k) := gs_grow_fit (-6144) 6144 le1 le2 le3 k Hk0 fit l H.
Let Gp l (H : 1 <= l < k) := gsp_grow_fit (-6144) 6144 le1 le2 le3 k Hk0 fit l H.
Let Gp0 l (H : 0 <= l < k) := gsp_grow0_fit (-6144) 6144 le1 le2 le3 k Hk0 fit l H.
Let in_gs a : zlen a = n -> all_in (-6144) 6144 a ->
  forall i, 0 <= i < 2 ^ k -> rng (gs_lo (-6144, 6144) k) (gs_hi (-6144, 6144) k) k (at_ a i).
Proof.
  intros La Ia i Hi. assert (A := all_in_at (-6144) 6144 a i Ia ltac:(rewrite La; exact Hi)).
  unfold rng, gs_lo, gs_hi. rewrite Z.sub_diag. cbn. exact A.
Qed.
Let in_gsp a : zlen a = n -> all_in (-6144) 6144 a ->
  forall i, 0 <= i < 2 ^ k -> rng (gsp_lo (-6144, 6144) k) (gsp_hi (-6144, 6144) k) k (at_ a i).
Proof.
  intros La Ia i Hi. assert (A := in_gs a La Ia i Hi). unfold rng, gsp_lo, gsp_hi in *.
  replace (k <=? 0) with false by lia. exact A.
Qed.
Let gsB v : rng (gs_lo (-6144, 6144) k) (gs_hi (-6144, 6144) k) 0 v -> - 2 ^ 31 <= v <= 2 ^ 31 - 1.
Proof. intros X. apply (res_gs (-6144) 6144 le1 le2 le3 k Hk0 fit v); [lia|exact X]. Qed.
Let gspB v : rng (gsp_lo (-6144, 6144) k) (gsp_hi (-6144, 6144) k) 0 v -> - 2 ^ 31 <= v <= 2 ^ 31 - 1.
Proof. intros X. apply (res_gsp (-6144) 6144 le1 le2 le3 k Hk0 fit v); [lia|exact X]. Qed.


(** A transform with the table it needs *)
Definition table_r2s (f : list Z -> Z -> list Z -> res (list Z)) : Prop :=
  omega_table k omega 8193 p /\ In f [ntt_red_ct_rev2std; mulntt_red_ct_rev2std]
  \/ omega_table_rev k omega 8193 p /\ In f [ntt_red_gs_rev2std; nttmul_red_gs_rev2std].
Definition table_s2r (f : list Z -> Z -> list Z -> res (list Z)) : Prop :=
  omega_table_rev k omega 8193 p /\ In f [ntt_red_ct_std2rev; mulntt_red_ct_std2rev]
  \/ omega_table k omega 8193 p /\ In f [ntt_red_gs_std2rev; nttmul_red_gs_std2rev].

Lemma r2s_right f a : table_r2s f -> zlen a = 2 ^ k -> all_in (-6144) 6144 a ->
  exists r, f a (2 ^ k) p = Ok r /\ zlen r = 2 ^ k /\ all_in (- 2 ^ 31) (2 ^ 31 - 1) r
    /\ forall j, 0 <= j < 2 ^ k -> eqQ (at_ r j) (NTT (2 ^ k) omega (fun i => at_ a (bitrev k i)) j).
Proof.
  intros [[T [<-|[<-|[]]]]|[T [<-|[<-|[]]]]] La Ia.
  - apply from_spec with (B := rng (ct_lo 12288) (ct_hi 12288) k); [exact ctB|].
    apply ntt_red_ct_rev2std_spec; auto.
  - apply from_spec with (B := rng (ct_lo 12288) (ct_hi 12288) k); [exact ctB|].
    apply mulntt_red_ct_rev2std_omega; auto.
  - apply from_spec with (B := rng (gsp_lo (-6144, 6144) k) (gsp_hi (-6144, 6144) k) 0); [exact gspB|].
    apply ntt_red_gs_rev2std_spec; auto.
  - apply from_spec with (B := rng (gs_lo (-6144, 6144) k) (gs_hi (-6144, 6144) k) 0); [exact gsB|].
    apply nttmul_red_gs_rev2std_omega; auto.
Qed.
Lemma s2r_right f a : table_s2r f -> zlen a = 2 ^ k -> all_in (-6144) 6144 a ->
  exists r, f a (2 ^ k) p = Ok r /\ zlen r = 2 ^ k /\ all_in (- 2 ^ 31) (2 ^ 31 - 1) r
    /\ forall j, 0 <= j < 2 ^ k -> eqQ (at_ r (bitrev k j)) (NTT (2 ^ k) omega (at_ a) j).
Proof.
  intros [[T [<-|[<-|[]]]]|[T [<-|[<-|[]]]]] La Ia.
  - apply from_spec with (B := rng (ct_lo 12288) (ct_hi 12288) k); [exact ctB|].
    apply ntt_red_ct_std2rev_spec; auto.
  - apply from_spec with (B := rng (ct_lo 12288) (ct_hi 12288) k); [exact ctB|].
    apply mulntt_red_ct_std2rev_omega; auto.
  - apply from_spec with (B := rng (gsp_lo (-6144, 6144) k) (gsp_hi (-6144, 6144) k) 0); [exact gspB|].
    apply ntt_red_gs_std2rev_spec; auto.
  - apply from_spec with (B := rng (gs_lo (-6144, 6144) k) (gs_hi (-6144, 6144) k) 0); [exact gsB|].
    apply nttmul_red_gs_std2rev_omega; auto.
Qed.

Section Wrap.
Variable shuffle : list Z -> res (list Z).
Hypothesis Hsh : forall a, zlen a = n -> shuffle a = ModelNtt.bitrev_shuffle a n.

Let NTT_ext (f g : Z -> Z) j : (forall i, 0 <= i < n -> eqQ (f i) (g i)) -> eqQ (NTT n omega f j) (NTT n omega g j).
Proof. intros H. unfold NTT. apply Sum_extQ. intros i Hi. rewrite H by exact Hi. reflexivity. Qed.

Lemma rev2std_right f : table_r2s f -> computes_ntt n omega (rev2std n shuffle f p).
Proof.
  intros Hf a La Ia. unfold n, rev2std in *.
  destruct (shifted k p Hk Lp Ip shuffle Hsh a La Ia) as (b & -> & Lb & Ib & Vb). cbn [bind].
  destruct (shuffle_spec k Hk shuffle Hsh b Lb) as (c & -> & Lc & Vc). cbn [bind].
  destruct (r2s_right f c Hf Lc (shuffle_in k Hk _ _ b c Lb Ib Lc Vc)) as (d & -> & Ld & Id & Vd). cbn [bind].
  destruct (normalized k p Hk Lp Ip shuffle Hsh d Ld Id) as (r & -> & Lr & Vr). exists r. split; [reflexivity|]. split; [exact Lr|].
  intros i Hi. rewrite Vr by exact Hi. change (eqQ (at_ d i) (NTT (2 ^ k) omega (at_ a) i)).
  rewrite Vd by exact Hi. apply NTT_ext. intros x Hx. assert (B := bitrev_range k x Hk0).
  rewrite Vc by exact B. rewrite bitrev_invol by assumption. apply Vb, Hx.
Qed.

Lemma std2rev_right f : table_s2r f -> computes_ntt n omega (std2rev n shuffle f p).
Proof.
  intros Hf a La Ia. unfold n, std2rev in *.
  destruct (shifted k p Hk Lp Ip shuffle Hsh a La Ia) as (b & -> & Lb & Ib & Vb). cbn [bind].
  destruct (s2r_right f b Hf Lb Ib) as (d & -> & Ld & Id & Vd). cbn [bind].
  destruct (normalized k p Hk Lp Ip shuffle Hsh d Ld Id) as (c & -> & Lc & Vc). cbn [bind].
  destruct (shuffle_spec k Hk shuffle Hsh c Lc) as (r & -> & Lr & Vr). exists r. split; [reflexivity|]. split; [exact Lr|].
  intros i Hi. assert (B := bitrev_range k i Hk0). rewrite Vr, Vc by assumption.
  change (eqQ (at_ d (bitrev k i)) (NTT (2 ^ k) omega (at_ a) i)).
  rewrite Vd by exact Hi. apply NTT_ext. exact Vb.
Qed.
End Wrap.
End Right.
