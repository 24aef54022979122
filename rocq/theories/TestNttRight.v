(** The functions of src/test_ntt.c compute what they should when their tables are right. *)

From Coq Require Import ZArith List Bool Lia Setoid Morphisms.
From Verif Require Import CSem Spec Loops ModQ Stages Tower TransformGen Forms ModelNtt NttElem NttTransforms
  AvxArrays ProdFinal Shuffle LinRed BasisElem LinNtt.
Import Spec.
Import ListNotations.
Open Scope Z_scope.

(** ** The transforms with a factor at index 0 too, with the tables of the others *)

Lemma mulntt_ct_rev2std_omega k w a p :
  0 <= k <= 31 -> (0 < k -> eqQ (w ^ (2 ^ (k - 1))) (-1)) ->
  omega_table k w 1 p -> (forall i, 1 <= i < 2 ^ k -> can (at_ p i)) ->
  zlen a = 2 ^ k -> (forall i, 0 <= i < 2 ^ k -> can (at_ a i)) ->
  exists r, mulntt_ct_rev2std a (2 ^ k) p = Ok r /\ zlen r = 2 ^ k
    /\ (forall j, 0 <= j < 2 ^ k ->
         eqQ (at_ r j) (NTT (2 ^ k) w (fun i => at_ a (bitrev k i)) j) /\ can (at_ r j)).
Proof.
  intros Hk Hw Ht Hp HL Ha. assert (Hn := pow31 k Hk).
  destruct (gen_A_up_mul k (2 ^ k) (zw k w) (fun _ => can) Hk eq_refl) with
    (body := ct_bfly) (p := p) (a := a)
    as (r & E & HLr & HR); auto.
  { apply tower_omega. exact Hw. }
  { exact bfly0. }
  { apply Ht. }
  { intros l j s Hl Hj. apply ct_bfly_ct; [lia | |].
    - apply Hp. apply entry_range; lia.
    - rewrite (omega_table_z k w 1 p Ht) by lia. qring. }
  exists r. split; [exact E|]. split; [exact HLr|]. intros j Hj.
  destruct (HR j Hj) as [HE HB]. split; [|exact HB]. rewrite HE. clear HE.
  rewrite (form_ct_rev k w (at_ a)) by lia. reflexivity.
Qed.

Lemma mulntt_ct_std2rev_omega k w a p :
  0 <= k <= 31 -> (0 < k -> eqQ (w ^ (2 ^ (k - 1))) (-1)) ->
  omega_table_rev k w 1 p -> (forall i, 1 <= i < 2 ^ k -> can (at_ p i)) ->
  zlen a = 2 ^ k -> (forall i, 0 <= i < 2 ^ k -> can (at_ a i)) ->
  exists r, mulntt_ct_std2rev a (2 ^ k) p = Ok r /\ zlen r = 2 ^ k
    /\ (forall j, 0 <= j < 2 ^ k ->
         eqQ (at_ r (bitrev k j)) (NTT (2 ^ k) w (at_ a) j) /\ can (at_ r j)).
Proof.
  intros Hk Hw Ht Hp HL Ha. assert (Hn := pow31 k Hk).
  destruct (gen_B_up_mul k (2 ^ k) (zw k w) (fun _ => can) Hk eq_refl) with
    (body := ct_bfly) (p := p) (a := a)
    as (r & E & HLr & HR); auto.
  { apply tower_omega. exact Hw. }
  { exact bfly0. }
  { apply Ht. }
  { intros l j h s Hl Hj Hh. apply ct_bfly_ct; [lia | |].
    - apply Hp. apply entry_range; lia.
    - rewrite (omega_table_rev_z k w 1 p Ht) by lia. qring. }
  exists r. split; [exact E|]. split; [exact HLr|]. intros j Hj.
  assert (R := bitrev_range k j ltac:(lia)).
  split; [|apply HR; lia].
  destruct (HR (bitrev k j) R) as [HE _]. rewrite HE. clear HE.
  rewrite (form_ct_std k w (at_ a)) by lia. reflexivity.
Qed.

Lemma nttmul_gs_rev2std_omega k w a p :
  0 <= k <= 31 -> (0 < k -> eqQ (w ^ (2 ^ (k - 1))) (-1)) ->
  omega_table_rev k w 1 p -> (forall i, 1 <= i < 2 ^ k -> can (at_ p i)) ->
  zlen a = 2 ^ k -> (forall i, 0 <= i < 2 ^ k -> can (at_ a i)) ->
  exists r, nttmul_gs_rev2std a (2 ^ k) p = Ok r /\ zlen r = 2 ^ k
    /\ (forall j, 0 <= j < 2 ^ k ->
         eqQ (at_ r j) (NTT (2 ^ k) w (fun i => at_ a (bitrev k i)) j) /\ can (at_ r j)).
Proof.
  intros Hk Hw Ht Hp HL Ha. assert (Hn := pow31 k Hk).
  destruct (gen_B_down_mul k (2 ^ k) (zw k w) (fun _ => can) Hk eq_refl) with
    (body := gs_bfly) (p := p) (a := a)
    as (r & E & HLr & HR); auto.
  { apply tower_omega. exact Hw. }
  { exact bfly0. }
  { apply Ht. }
  { intros l j h s Hl Hj Hh. apply gs_bfly_gs; [lia | |].
    - apply Hp. apply entry_range; lia.
    - rewrite (omega_table_rev_z k w 1 p Ht) by lia. qring. }
  exists r. split; [exact E|]. split; [exact HLr|]. intros j Hj.
  destruct (HR j Hj) as [HE HB]. split; [|exact HB]. rewrite HE. clear HE.
  rewrite (form_gs_rev k w (at_ a)) by lia. reflexivity.
Qed.

Lemma nttmul_gs_std2rev_omega k w a p :
  0 <= k <= 31 -> (0 < k -> eqQ (w ^ (2 ^ (k - 1))) (-1)) ->
  omega_table k w 1 p -> (forall i, 1 <= i < 2 ^ k -> can (at_ p i)) ->
  zlen a = 2 ^ k -> (forall i, 0 <= i < 2 ^ k -> can (at_ a i)) ->
  exists r, nttmul_gs_std2rev a (2 ^ k) p = Ok r /\ zlen r = 2 ^ k
    /\ (forall j, 0 <= j < 2 ^ k ->
         eqQ (at_ r (bitrev k j)) (NTT (2 ^ k) w (at_ a) j) /\ can (at_ r j)).
Proof.
  intros Hk Hw Ht Hp HL Ha. assert (Hn := pow31 k Hk).
  destruct (gen_A_down_mul k (2 ^ k) (zw k w) (fun _ => can) Hk eq_refl) with
    (body := gs_bfly) (p := p) (a := a)
    as (r & E & HLr & HR); auto.
  { apply tower_omega. exact Hw. }
  { exact bfly0. }
  { apply Ht. }
  { intros l j s Hl Hj. apply gs_bfly_gs; [lia | |].
    - apply Hp. apply entry_range; lia.
    - rewrite (omega_table_z k w 1 p Ht) by lia. qring. }
  exists r. split; [exact E|]. split; [exact HLr|]. intros j Hj.
  assert (R := bitrev_range k j ltac:(lia)).
  split; [|apply HR; lia].
  destruct (HR (bitrev k j) R) as [HE _]. rewrite HE. clear HE.
  rewrite (form_gs_std k w (at_ a)) by lia. reflexivity.
Qed.

(** ** What a function computes, modulo Q, as a function of the coefficients *)
Section Sem.
Variable n : Z.

Definition respects (G : (Z -> Z) -> Z -> Z) : Prop :=
  forall x y, (forall i, 0 <= i < n -> eqQ (x i) (y i)) -> forall i, 0 <= i < n -> eqQ (G x i) (G y i).
Definition sem (W : list Z -> res (list Z)) (G : (Z -> Z) -> Z -> Z) : Prop :=
  respects G /\ forall a, zlen a = n -> all_in 0 (Q - 1) a ->
  exists r, W a = Ok r /\ zlen r = n /\ forall i, 0 <= i < n -> can (at_ r i) /\ eqQ (at_ r i) (G (at_ a) i).

Lemma canon_of r : zlen r = n -> (forall i, 0 <= i < n -> can (at_ r i)) -> all_in 0 (Q - 1) r.
Proof. intros L H. apply all_in_of. intros i Hi. assert (X := H i ltac:(lia)). unfold can, Q in *. lia. Qed.

Lemma sem_seq V W G H : sem V G -> sem W H -> sem (fun a => do a <- V a; W a) (fun x => H (G x)).
Proof.
  intros [RG HG] [RH HH]. split.
  - intros x y E. apply RH. apply RG. exact E.
  - intros a La Ia. destruct (HG a La Ia) as (b & -> & Lb & Vb). cbn [bind].
    destruct (HH b Lb (canon_of b Lb (fun i Hi => proj1 (Vb i Hi)))) as (r & -> & Lr & Vr).
    exists r. split; [reflexivity|]. split; [exact Lr|]. intros i Hi. destruct (Vr i Hi) as [C X]. split; [exact C|].
    rewrite X. apply RH; [|exact Hi]. intros m Hm. apply Vb, Hm.
Qed.

Lemma sem_agree V W G H : sem V G -> sem W H -> (forall x i, 0 <= i < n -> eqQ (G x i) (H x i)) ->
  forall a, zlen a = n -> all_in 0 (Q - 1) a -> V a = W a.
Proof.
  intros [_ HG] [_ HH] E a La Ia. destruct (HG a La Ia) as (r & -> & Lr & Vr). destruct (HH a La Ia) as (s & -> & Ls & Vs).
  f_equal. apply (list_ext r s n Lr Ls). intros i Hi. destruct (Vr i Hi) as [C1 X1]. destruct (Vs i Hi) as [C2 X2].
  rewrite <- (Z.mod_small (at_ r i) Q) by exact C1. rewrite <- (Z.mod_small (at_ s i) Q) by exact C2.
  change (eqQ (at_ r i) (at_ s i)). rewrite X1, X2. apply E, Hi.
Qed.

Lemma sem_ntt W G w : sem W G -> (forall x i, 0 <= i < n -> eqQ (G x i) (NTT n w x i)) -> computes_ntt n w W.
Proof.
  intros [_ HG] E a La Ia. destruct (HG a La Ia) as (r & -> & Lr & Vr). exists r. split; [reflexivity|]. split; [exact Lr|].
  intros i Hi. destruct (Vr i Hi) as [C X]. rewrite <- (Z.mod_small (at_ r i) Q) by exact C.
  change (eqQ (at_ r i) (NTT n w (at_ a) i)). rewrite X. apply E, Hi.
Qed.
End Sem.

Lemma NTT_extQ n w x y j : (forall i, 0 <= i < n -> eqQ (x i) (y i)) -> eqQ (NTT n w x j) (NTT n w y j).
Proof. intros H. unfold NTT. apply Sum_extQ. intros i Hi. rewrite H by exact Hi. reflexivity. Qed.
Lemma NTT_root n w v x j : eqQ w v -> 0 <= j -> eqQ (NTT n w x j) (NTT n v x j).
Proof. intros H Hj. unfold NTT. apply Sum_extQ. intros i Hi. rewrite H. reflexivity. Qed.

Section Right.
Variables (k psi omega : Z) (p pr m mr pp : list Z) (shuffle : list Z -> res (list Z)).
Hypothesis Hk : 1 <= k <= 31.
Hypothesis Hpsi : eqQ (psi ^ (2 ^ k)) (-1).
Hypothesis Hom : eqQ omega (psi ^ 2).
Hypothesis Tp : omega_table k omega 1 p.
Hypothesis Tr : omega_table_rev k omega 1 pr.
Hypothesis Tm : mixed_table k psi 1 m.
Hypothesis Tmr : mixed_table_rev k psi 1 mr.
Hypothesis Tpp : zlen pp = 2 ^ k /\ forall i, 0 <= i < 2 ^ k -> at_ pp i = psi ^ i mod Q.
Hypothesis Ip : all_in 0 (Q - 1) p.
Hypothesis Ir : all_in 0 (Q - 1) pr.
Hypothesis Im : all_in 0 (Q - 1) m.
Hypothesis Imr : all_in 0 (Q - 1) mr.
Hypothesis Hsh : forall a, zlen a = 2 ^ k -> shuffle a = bitrev_shuffle a (2 ^ k).

Let Hk0 : 0 <= k. Proof. lia. Qed.
Let Hk31 : 0 <= k <= 31. Proof. lia. Qed.
Let Hn31 : 2 ^ k <= 2147483648. Proof. apply pow31. exact Hk31. Qed.
Let Hw : 0 < k -> eqQ (omega ^ (2 ^ (k - 1))) (-1).
Proof.
  intros _. rewrite Hom. rewrite <- Z.pow_mul_r by (try apply Z.pow_nonneg; lia).
  replace (2 * 2 ^ (k - 1)) with (2 ^ k); [exact Hpsi|].
  replace k with (k - 1 + 1) at 1 by lia. rewrite Z.pow_add_r by lia. ring.
Qed.
Let tab q : zlen q = 2 ^ k -> all_in 0 (Q - 1) q -> forall i, 1 <= i < 2 ^ k -> can (at_ q i).
Proof. intros L I i Hi. apply (can_in q _ L I). lia. Qed.
Let Bp := tab p (proj1 Tp) Ip.
Let Br := tab pr (proj1 Tr) Ir.
Let Bm := tab m (proj1 Tm) Im.
Let Bmr := tab mr (proj1 Tmr) Imr.
Let Bpp i : 0 <= i < 2 ^ k -> can (at_ pp i) /\ eqQ (at_ pp i) (psi ^ i).
Proof.
  intros Hi. rewrite (proj2 Tpp) by exact Hi. split; [|apply eqQ_modn].
  assert (X := Z.mod_pos_bound (psi ^ i) Q ltac:(unfold Q; lia)). exact X.
Qed.

Let N := 2 ^ k.
Let rev (x : Z -> Z) i := x (bitrev k i).
Let scale (x : Z -> Z) i := x i * psi ^ i.
Let nt (x : Z -> Z) i := NTT N omega x i.

Let r_rev : respects N rev.
Proof. intros x y H i Hi. apply H. apply bitrev_range. exact Hk0. Qed.
Let r_scale : respects N scale.
Proof. intros x y H i Hi. unfold scale. rewrite H by exact Hi. reflexivity. Qed.
Let r_nt : respects N nt.
Proof. intros x y H i Hi. apply NTT_extQ. exact H. Qed.
Let r_comp G H : respects N G -> respects N H -> respects N (fun x => H (G x)).
Proof. intros RG RH x y E. apply RH. apply RG. exact E. Qed.

Let s_shuffle : sem N shuffle rev.
Proof.
  split; [exact r_rev|]. intros a La Ia. rewrite Hsh by exact La.
  destruct (bitrev_shuffle_ok k a Hk31 La) as (r & -> & Lr & V). exists r. split; [reflexivity|]. split; [exact Lr|].
  intros i Hi. rewrite V by exact Hi. split; [|reflexivity]. apply (can_in a _ La Ia). apply bitrev_range. exact Hk0.
Qed.

Let s_mul : sem N (fun a => mul_array16 a (2 ^ k) pp) scale.
Proof.
  split; [exact r_scale|]. intros a La Ia. assert (Ca := can_in a _ La Ia).
  destruct (mul_array16_spec a (2 ^ k) pp) as (r & -> & Lr & V & _).
  - unfold N in *. lia.
  - unfold N in *. lia.
  - rewrite (proj1 Tpp). lia.
  - intros i Hi. assert (X := mul_can _ _ (Ca i Hi) (proj1 (Bpp i Hi))). lia.
  - exists r. split; [reflexivity|]. split; [unfold N in *; lia|]. intros i Hi. rewrite V by exact Hi. split; [apply can_mod|].
    rewrite eqQ_modn. unfold scale. rewrite (proj2 (Bpp i Hi)). reflexivity.
Qed.

(** In standard order from bit-reverse order *)
Let from_r2s f (G : (Z -> Z) -> Z -> Z) : respects N G ->
  (forall a, zlen a = 2 ^ k -> (forall i, 0 <= i < 2 ^ k -> can (at_ a i)) ->
   exists r, f a = Ok r /\ zlen r = 2 ^ k /\ forall j, 0 <= j < 2 ^ k -> eqQ (at_ r j) (G (at_ a) j) /\ can (at_ r j)) -> sem N f G.
Proof.
  intros R H. split; [exact R|]. intros a La Ia. destruct (H a La (can_in a _ La Ia)) as (r & E & Lr & V).
  exists r. split; [exact E|]. split; [exact Lr|]. intros i Hi. destruct (V i Hi). auto.
Qed.
Let from_s2r f (G : (Z -> Z) -> Z -> Z) : respects N G ->
  (forall a, zlen a = 2 ^ k -> (forall i, 0 <= i < 2 ^ k -> can (at_ a i)) ->
   exists r, f a = Ok r /\ zlen r = 2 ^ k /\ forall j, 0 <= j < 2 ^ k -> eqQ (at_ r (bitrev k j)) (G (at_ a) j) /\ can (at_ r j)) ->
  sem N f (fun x => rev (G x)).
Proof.
  intros R H. split; [exact (r_comp G rev R r_rev)|]. intros a La Ia. destruct (H a La (can_in a _ La Ia)) as (r & E & Lr & V).
  exists r. split; [exact E|]. split; [exact Lr|]. intros i Hi. assert (B := bitrev_range k i Hk0).
  split; [apply V, Hi|]. unfold rev. rewrite <- (proj1 (V (bitrev k i) B)). rewrite bitrev_invol by assumption. reflexivity.
Qed.

Let nt_rev := (fun x => nt (rev x)) : (Z -> Z) -> Z -> Z.
Let r_nt_rev : respects N nt_rev := r_comp rev nt r_rev r_nt.
Let nt_sc := (fun x => nt (scale x)) : (Z -> Z) -> Z -> Z.
Let r_nt_sc : respects N nt_sc := r_comp scale nt r_scale r_nt.
Let sc_nt := (fun x => scale (nt x)) : (Z -> Z) -> Z -> Z.
Let r_sc_nt : respects N sc_nt := r_comp nt scale r_nt r_scale.

(** The transforms *)
Let s_v1 : sem N (fun a => ntt_ct_rev2std_v1 a (2 ^ k) pp) nt_rev.
Proof.
  apply from_r2s; [exact r_nt_rev|]. intros a La Ia.
  destruct (ntt_ct_rev2std_v1_spec k psi a pp Hk31 Hpsi (proj1 Tpp) Bpp La Ia) as (r & E & Lr & V).
  exists r. split; [exact E|]. split; [exact Lr|]. intros j Hj. destruct (V j Hj) as [X C]. split; [|exact C].
  rewrite X. unfold nt_rev, nt, rev, N. apply NTT_root; [symmetry; exact Hom|lia].
Qed.
Let s_ct_r2s : sem N (fun a => ntt_ct_rev2std a (2 ^ k) p) nt_rev.
Proof. apply from_r2s; [exact r_nt_rev|]. intros a La Ia. exact (ntt_ct_rev2std_spec k omega a p Hk31 Hw Tp Bp La Ia). Qed.
Let s_mct_r2s : sem N (fun a => mulntt_ct_rev2std a (2 ^ k) p) nt_rev.
Proof. apply from_r2s; [exact r_nt_rev|]. intros a La Ia. exact (mulntt_ct_rev2std_omega k omega a p Hk31 Hw Tp Bp La Ia). Qed.
Let s_gs_r2s : sem N (fun a => ntt_gs_rev2std a (2 ^ k) pr) nt_rev.
Proof. apply from_r2s; [exact r_nt_rev|]. intros a La Ia. exact (ntt_gs_rev2std_spec k omega a pr Hk31 Hw Tr Br La Ia). Qed.
Let s_mgs_r2s : sem N (fun a => nttmul_gs_rev2std a (2 ^ k) pr) nt_rev.
Proof. apply from_r2s; [exact r_nt_rev|]. intros a La Ia. exact (nttmul_gs_rev2std_omega k omega a pr Hk31 Hw Tr Br La Ia). Qed.
Let s_ct_s2r : sem N (fun a => ntt_ct_std2rev a (2 ^ k) pr) (fun x => rev (nt x)).
Proof. apply from_s2r; [exact r_nt|]. intros a La Ia. exact (ntt_ct_std2rev_spec k omega a pr Hk31 Hw Tr Br La Ia). Qed.
Let s_mct_s2r : sem N (fun a => mulntt_ct_std2rev a (2 ^ k) pr) (fun x => rev (nt x)).
Proof. apply from_s2r; [exact r_nt|]. intros a La Ia. exact (mulntt_ct_std2rev_omega k omega a pr Hk31 Hw Tr Br La Ia). Qed.
Let s_gs_s2r : sem N (fun a => ntt_gs_std2rev a (2 ^ k) p) (fun x => rev (nt x)).
Proof. apply from_s2r; [exact r_nt|]. intros a La Ia. exact (ntt_gs_std2rev_spec k omega a p Hk31 Hw Tp Bp La Ia). Qed.
Let s_mgs_s2r : sem N (fun a => nttmul_gs_std2rev a (2 ^ k) p) (fun x => rev (nt x)).
Proof. apply from_s2r; [exact r_nt|]. intros a La Ia. exact (nttmul_gs_std2rev_omega k omega a p Hk31 Hw Tp Bp La Ia). Qed.

(** The transforms combined with a product by the powers of psi *)
Let s_cm_r2s : sem N (fun a => mulntt_ct_rev2std a (2 ^ k) m) (fun x => nt_sc (rev x)).
Proof.
  apply from_r2s; [exact (r_comp rev nt_sc r_rev r_nt_sc)|]. intros a La Ia.
  destruct (mulntt_ct_rev2std_spec k psi a m Hk31 Hpsi Tm Bm La Ia) as (r & E & Lr & V).
  exists r. split; [exact E|]. split; [exact Lr|]. intros j Hj. destruct (V j Hj) as [X C]. split; [|exact C].
  rewrite X. unfold nt_sc, nt, scale, rev, N. apply NTT_root; [symmetry; exact Hom|lia].
Qed.
Let s_cm_s2r : sem N (fun a => mulntt_ct_std2rev a (2 ^ k) mr) (fun x => rev (nt_sc x)).
Proof.
  apply from_s2r; [exact r_nt_sc|]. intros a La Ia.
  destruct (mulntt_ct_std2rev_spec k psi a mr Hk31 Hpsi Tmr Bmr La Ia) as (r & E & Lr & V).
  exists r. split; [exact E|]. split; [exact Lr|]. intros j Hj. destruct (V j Hj) as [X C]. split; [|exact C].
  rewrite X. unfold nt_sc, nt, scale, N. apply NTT_root; [symmetry; exact Hom|lia].
Qed.
Let s_cg_r2s : sem N (fun a => nttmul_gs_rev2std a (2 ^ k) mr) (fun x => sc_nt (rev x)).
Proof.
  apply from_r2s; [exact (r_comp rev sc_nt r_rev r_sc_nt)|]. intros a La Ia.
  destruct (nttmul_gs_rev2std_spec k psi a mr Hk31 Hpsi Tmr Bmr La Ia) as (r & E & Lr & V).
  exists r. split; [exact E|]. split; [exact Lr|]. intros j Hj. destruct (V j Hj) as [X C]. split; [|exact C].
  rewrite X. unfold sc_nt, nt, scale, rev, N. rewrite (NTT_root (2 ^ k) omega (psi ^ 2) _ j Hom) by lia. qring.
Qed.
Let s_cg_s2r : sem N (fun a => nttmul_gs_std2rev a (2 ^ k) m) (fun x => rev (sc_nt x)).
Proof.
  apply from_s2r; [exact r_sc_nt|]. intros a La Ia.
  destruct (nttmul_gs_std2rev_spec k psi a m Hk31 Hpsi Tm Bm La Ia) as (r & E & Lr & V).
  exists r. split; [exact E|]. split; [exact Lr|]. intros j Hj. destruct (V j Hj) as [X C]. split; [|exact C].
  rewrite X. unfold sc_nt, nt, scale, N. rewrite (NTT_root (2 ^ k) omega (psi ^ 2) _ j Hom) by lia. qring.
Qed.

Let rev_rev x i : 0 <= i < N -> rev (rev x) i = x i.
Proof. intros Hi. unfold rev. rewrite bitrev_invol by assumption. reflexivity. Qed.
Let nt_rev_rev x i : 0 <= i < N -> eqQ (nt_rev (rev x) i) (NTT N omega x i).
Proof. intros Hi. unfold nt_rev, nt. apply NTT_extQ. intros j Hj. rewrite rev_rev by exact Hj. reflexivity. Qed.

Let r2s_ok f : sem N f nt_rev -> computes_ntt (2 ^ k) omega (fun a => do a <- shuffle a; f a).
Proof.
  intros S. apply (sem_ntt N _ _ omega (sem_seq N _ _ _ _ s_shuffle S)). exact nt_rev_rev.
Qed.
Let s2r_ok f : sem N f (fun x => rev (nt x)) -> computes_ntt (2 ^ k) omega (fun a => do a <- f a; shuffle a).
Proof.
  intros S. apply (sem_ntt N _ _ omega (sem_seq N _ _ _ _ S s_shuffle)). intros x i Hi. rewrite rev_rev by exact Hi. reflexivity.
Qed.

Let right_v1 := r2s_ok _ s_v1.
Let right_ct_r2s := r2s_ok _ s_ct_r2s.
Let right_mct_r2s := r2s_ok _ s_mct_r2s.
Let right_gs_r2s := r2s_ok _ s_gs_r2s.
Let right_mgs_r2s := r2s_ok _ s_mgs_r2s.
Let right_ct_s2r := s2r_ok _ s_ct_s2r.
Let right_mct_s2r := s2r_ok _ s_mct_s2r.
Let right_gs_s2r := s2r_ok _ s_gs_s2r.
Let right_mgs_s2r := s2r_ok _ s_mgs_s2r.

(** The pairs compared by cross_check *)
Let agree_mulntt : forall a, zlen a = 2 ^ k -> all_in 0 (Q - 1) a ->
  (do a <- shuffle a; mulntt_ct_rev2std a (2 ^ k) m)
  = (do a <- mul_array16 a (2 ^ k) pp; do a <- shuffle a; ntt_ct_rev2std_v1 a (2 ^ k) pp).
Proof.
  apply (sem_agree N _ _ _ _ (sem_seq N _ _ _ _ s_shuffle s_cm_r2s) (sem_seq N _ _ _ _ s_mul (sem_seq N _ _ _ _ s_shuffle s_v1))).
  intros x i Hi. rewrite nt_rev_rev by exact Hi. unfold nt_sc, nt. apply NTT_extQ. intros j Hj. unfold scale.
  rewrite rev_rev by exact Hj. reflexivity.
Qed.
Let agree_mulntt_rev : forall a, zlen a = 2 ^ k -> all_in 0 (Q - 1) a ->
  mulntt_ct_std2rev a (2 ^ k) mr = (do a <- mul_array16 a (2 ^ k) pp; ntt_ct_std2rev a (2 ^ k) pr).
Proof.
  apply (sem_agree N _ _ _ _ s_cm_s2r (sem_seq N _ _ _ _ s_mul s_ct_s2r)). intros x i Hi. reflexivity.
Qed.
Let agree_nttmul : forall a, zlen a = 2 ^ k -> all_in 0 (Q - 1) a ->
  (do a <- shuffle a; nttmul_gs_rev2std a (2 ^ k) mr)
  = (do a <- shuffle a; do a <- ntt_ct_rev2std a (2 ^ k) p; mul_array16 a (2 ^ k) pp).
Proof.
  apply (sem_agree N _ _ _ _ (sem_seq N _ _ _ _ s_shuffle s_cg_r2s) (sem_seq N _ _ _ _ s_shuffle (sem_seq N _ _ _ _ s_ct_r2s s_mul))).
  intros x i Hi. reflexivity.
Qed.
Let agree_nttmul_rev : forall a, zlen a = 2 ^ k -> all_in 0 (Q - 1) a ->
  (do a <- nttmul_gs_std2rev a (2 ^ k) m; shuffle a)
  = (do a <- ntt_ct_std2rev a (2 ^ k) pr; do a <- shuffle a; mul_array16 a (2 ^ k) pp).
Proof.
  apply (sem_agree N _ _ _ _ (sem_seq N _ _ _ _ s_cg_s2r s_shuffle) (sem_seq N _ _ _ _ s_ct_s2r (sem_seq N _ _ _ _ s_shuffle s_mul))).
  intros x i Hi. rewrite rev_rev by exact Hi. unfold sc_nt, scale. rewrite rev_rev by exact Hi. reflexivity.
Qed.

Lemma all_right :
  let ok W := computes_ntt (2 ^ k) omega W in
  let same V W := forall a, zlen a = 2 ^ k -> all_in 0 (Q - 1) a -> V a = W a in
  (ok (fun a => do a <- shuffle a; ntt_ct_rev2std_v1 a (2 ^ k) pp)
   /\ ok (fun a => do a <- shuffle a; ntt_ct_rev2std a (2 ^ k) p)
   /\ ok (fun a => do a <- shuffle a; mulntt_ct_rev2std a (2 ^ k) p)
   /\ ok (fun a => do a <- ntt_ct_std2rev a (2 ^ k) pr; shuffle a)
   /\ ok (fun a => do a <- mulntt_ct_std2rev a (2 ^ k) pr; shuffle a)
   /\ ok (fun a => do a <- shuffle a; ntt_gs_rev2std a (2 ^ k) pr)
   /\ ok (fun a => do a <- shuffle a; nttmul_gs_rev2std a (2 ^ k) pr)
   /\ ok (fun a => do a <- ntt_gs_std2rev a (2 ^ k) p; shuffle a)
   /\ ok (fun a => do a <- nttmul_gs_std2rev a (2 ^ k) p; shuffle a))
  /\ same (fun a => do a <- shuffle a; mulntt_ct_rev2std a (2 ^ k) m)
          (fun a => do a <- mul_array16 a (2 ^ k) pp; do a <- shuffle a; ntt_ct_rev2std_v1 a (2 ^ k) pp)
  /\ same (fun a => mulntt_ct_std2rev a (2 ^ k) mr)
          (fun a => do a <- mul_array16 a (2 ^ k) pp; ntt_ct_std2rev a (2 ^ k) pr)
  /\ same (fun a => do a <- shuffle a; nttmul_gs_rev2std a (2 ^ k) mr)
          (fun a => do a <- shuffle a; do a <- ntt_ct_rev2std a (2 ^ k) p; mul_array16 a (2 ^ k) pp)
  /\ same (fun a => do a <- nttmul_gs_std2rev a (2 ^ k) m; shuffle a)
          (fun a => do a <- ntt_ct_std2rev a (2 ^ k) pr; do a <- shuffle a; mul_array16 a (2 ^ k) pp).
Proof.
  intros ok same.
  split; [exact (conj right_v1 (conj right_ct_r2s (conj right_mct_r2s (conj right_ct_s2r (conj right_mct_s2r
    (conj right_gs_r2s (conj right_mgs_r2s (conj right_gs_s2r right_mgs_s2r))))))))|].
  exact (conj agree_mulntt (conj agree_mulntt_rev (conj agree_nttmul agree_nttmul_rev))).
Qed.
End Right.
