(** The transforms of src/ntt.c compute the NTT. *)

From Coq Require Import ZArith List Lia Setoid Morphisms.
From Verif Require Import CSem Spec Loops ModQ Stages Tower TransformGen Forms ModelNtt NttElem.
Import ListNotations.
Open Scope Z_scope.

Lemma ntt_ct_rev2std_spec k w a p :
  0 <= k <= 31 -> (0 < k -> eqQ (w ^ (2 ^ (k - 1))) (-1)) ->
  omega_table k w 1 p -> (forall i, 1 <= i < 2 ^ k -> can (at_ p i)) ->
  zlen a = 2 ^ k -> (forall i, 0 <= i < 2 ^ k -> can (at_ a i)) ->
  exists r, ntt_ct_rev2std a (2 ^ k) p = Ok r /\ zlen r = 2 ^ k
    /\ (forall j, 0 <= j < 2 ^ k ->
         eqQ (at_ r j) (NTT (2 ^ k) w (fun i => at_ a (bitrev k i)) j) /\ can (at_ r j)).
Proof.
  intros Hk Hw Ht Hp HL Ha. assert (Hn := pow31 k Hk).
  destruct (gen_A_up_plain k (2 ^ k) (zw k w) (fun _ => can) Hk eq_refl) with
    (body0 := bfly0) (body := ct_bfly) (p := p) (a := a)
    as (r & E & HLr & HR); auto.
  { apply tower_omega. exact Hw. }
  { apply Ht. }
  { intros. apply zw_0. }
  { intros. apply bfly0_ct. lia. }
  { intros l j s Hl Hj. apply ct_bfly_ct; [lia | |].
    - apply Hp. apply entry_range; lia.
    - rewrite (omega_table_z k w 1 p Ht) by lia. qring. }
  exists r. split; [exact E|]. split; [exact HLr|]. intros j Hj.
  destruct (HR j Hj) as [HE HB]. split; [|exact HB]. rewrite HE. clear HE.
  rewrite (form_ct_rev k w (at_ a)) by lia. reflexivity.
Qed.

Lemma mulntt_ct_rev2std_spec k w a p :
  0 <= k <= 31 -> eqQ (w ^ (2 ^ k)) (-1) ->
  mixed_table k w 1 p -> (forall i, 1 <= i < 2 ^ k -> can (at_ p i)) ->
  zlen a = 2 ^ k -> (forall i, 0 <= i < 2 ^ k -> can (at_ a i)) ->
  exists r, mulntt_ct_rev2std a (2 ^ k) p = Ok r /\ zlen r = 2 ^ k
    /\ (forall j, 0 <= j < 2 ^ k ->
         eqQ (at_ r j) (NTT (2 ^ k) (w ^ 2) (fun i => at_ a (bitrev k i) * w ^ i) j) /\ can (at_ r j)).
Proof.
  intros Hk Hw Ht Hp HL Ha. assert (Hn := pow31 k Hk).
  destruct (gen_A_up_mul k (2 ^ k) (zp k w) (fun _ => can) Hk eq_refl) with
    (body := ct_bfly) (p := p) (a := a)
    as (r & E & HLr & HR); auto.
  { apply tower_psi. exact Hw. }
  { exact bfly0. }
  { apply Ht. }
  { intros l j s Hl Hj. apply ct_bfly_ct; [lia | |].
    - apply Hp. apply entry_range; lia.
    - rewrite (mixed_table_z k w 1 p Ht) by lia. qring. }
  exists r. split; [exact E|]. split; [exact HLr|]. intros j Hj.
  destruct (HR j Hj) as [HE HB]. split; [|exact HB]. rewrite HE. clear HE.
  rewrite (form_ct_rev_mul k w (at_ a)) by lia. reflexivity.
Qed.

Lemma ntt_ct_std2rev_spec k w a p :
  0 <= k <= 31 -> (0 < k -> eqQ (w ^ (2 ^ (k - 1))) (-1)) ->
  omega_table_rev k w 1 p -> (forall i, 1 <= i < 2 ^ k -> can (at_ p i)) ->
  zlen a = 2 ^ k -> (forall i, 0 <= i < 2 ^ k -> can (at_ a i)) ->
  exists r, ntt_ct_std2rev a (2 ^ k) p = Ok r /\ zlen r = 2 ^ k
    /\ (forall j, 0 <= j < 2 ^ k ->
         eqQ (at_ r (bitrev k j)) (NTT (2 ^ k) w (at_ a) j) /\ can (at_ r j)).
Proof.
  intros Hk Hw Ht Hp HL Ha. assert (Hn := pow31 k Hk).
  destruct (gen_B_up_plain k (2 ^ k) (zw k w) (fun _ => can) Hk eq_refl) with
    (body0 := bfly0) (body := ct_bfly) (p := p) (a := a)
    as (r & E & HLr & HR); auto.
  { apply tower_omega. exact Hw. }
  { apply Ht. }
  { intros. apply zw_0. }
  { intros. apply bfly0_ct. lia. }
  { intros l j h s Hl Hj Hh. apply ct_bfly_ct; [lia | |].
    - apply Hp. apply entry_range; lia.
    - rewrite (omega_table_rev_z k w 1 p Ht) by lia. qring. }
  exists r. split; [exact E|]. split; [exact HLr|]. intros j Hj.
  assert (R := bitrev_range k j ltac:(lia)).
  split; [|apply HR; lia].
  destruct (HR (bitrev k j) R) as [HE _]. rewrite HE. clear HE.
  rewrite (form_ct_std k w (at_ a)) by lia. reflexivity.
Qed.

Lemma mulntt_ct_std2rev_spec k w a p :
  0 <= k <= 31 -> eqQ (w ^ (2 ^ k)) (-1) ->
  mixed_table_rev k w 1 p -> (forall i, 1 <= i < 2 ^ k -> can (at_ p i)) ->
  zlen a = 2 ^ k -> (forall i, 0 <= i < 2 ^ k -> can (at_ a i)) ->
  exists r, mulntt_ct_std2rev a (2 ^ k) p = Ok r /\ zlen r = 2 ^ k
    /\ (forall j, 0 <= j < 2 ^ k ->
         eqQ (at_ r (bitrev k j)) (NTT (2 ^ k) (w ^ 2) (fun i => at_ a i * w ^ i) j) /\ can (at_ r j)).
Proof.
  intros Hk Hw Ht Hp HL Ha. assert (Hn := pow31 k Hk).
  destruct (gen_B_up_mul k (2 ^ k) (zp k w) (fun _ => can) Hk eq_refl) with
    (body := ct_bfly) (p := p) (a := a)
    as (r & E & HLr & HR); auto.
  { apply tower_psi. exact Hw. }
  { exact bfly0. }
  { apply Ht. }
  { intros l j h s Hl Hj Hh. apply ct_bfly_ct; [lia | |].
    - apply Hp. apply entry_range; lia.
    - rewrite (mixed_table_rev_z k w 1 p Ht) by lia. qring. }
  exists r. split; [exact E|]. split; [exact HLr|]. intros j Hj.
  assert (R := bitrev_range k j ltac:(lia)).
  split; [|apply HR; lia].
  destruct (HR (bitrev k j) R) as [HE _]. rewrite HE. clear HE.
  rewrite (form_ct_std_mul k w (at_ a)) by lia. reflexivity.
Qed.

Lemma ntt_gs_rev2std_spec k w a p :
  0 <= k <= 31 -> (0 < k -> eqQ (w ^ (2 ^ (k - 1))) (-1)) ->
  omega_table_rev k w 1 p -> (forall i, 1 <= i < 2 ^ k -> can (at_ p i)) ->
  zlen a = 2 ^ k -> (forall i, 0 <= i < 2 ^ k -> can (at_ a i)) ->
  exists r, ntt_gs_rev2std a (2 ^ k) p = Ok r /\ zlen r = 2 ^ k
    /\ (forall j, 0 <= j < 2 ^ k ->
         eqQ (at_ r j) (NTT (2 ^ k) w (fun i => at_ a (bitrev k i)) j) /\ can (at_ r j)).
Proof.
  intros Hk Hw Ht Hp HL Ha. assert (Hn := pow31 k Hk).
  destruct (gen_B_down_plain k (2 ^ k) (zw k w) (fun _ => can) Hk eq_refl) with
    (body0 := bfly0) (body := gs_bfly) (p := p) (a := a)
    as (r & E & HLr & HR); auto.
  { apply tower_omega. exact Hw. }
  { apply Ht. }
  { intros. apply zw_0. }
  { intros. apply bfly0_gs. lia. }
  { intros l j h s Hl Hj Hh. apply gs_bfly_gs; [lia | |].
    - apply Hp. apply entry_range; lia.
    - rewrite (omega_table_rev_z k w 1 p Ht) by lia. qring. }
  exists r. split; [exact E|]. split; [exact HLr|]. intros j Hj.
  destruct (HR j Hj) as [HE HB]. split; [|exact HB]. rewrite HE. clear HE.
  rewrite (form_gs_rev k w (at_ a)) by lia. reflexivity.
Qed.

Lemma nttmul_gs_rev2std_spec k w a p :
  0 <= k <= 31 -> eqQ (w ^ (2 ^ k)) (-1) ->
  mixed_table_rev k w 1 p -> (forall i, 1 <= i < 2 ^ k -> can (at_ p i)) ->
  zlen a = 2 ^ k -> (forall i, 0 <= i < 2 ^ k -> can (at_ a i)) ->
  exists r, nttmul_gs_rev2std a (2 ^ k) p = Ok r /\ zlen r = 2 ^ k
    /\ (forall j, 0 <= j < 2 ^ k ->
         eqQ (at_ r j) (w ^ j * NTT (2 ^ k) (w ^ 2) (fun i => at_ a (bitrev k i)) j) /\ can (at_ r j)).
Proof.
  intros Hk Hw Ht Hp HL Ha. assert (Hn := pow31 k Hk).
  destruct (gen_B_down_mul k (2 ^ k) (zp k w) (fun _ => can) Hk eq_refl) with
    (body := gs_bfly) (p := p) (a := a)
    as (r & E & HLr & HR); auto.
  { apply tower_psi. exact Hw. }
  { exact bfly0. }
  { apply Ht. }
  { intros l j h s Hl Hj Hh. apply gs_bfly_gs; [lia | |].
    - apply Hp. apply entry_range; lia.
    - rewrite (mixed_table_rev_z k w 1 p Ht) by lia. qring. }
  exists r. split; [exact E|]. split; [exact HLr|]. intros j Hj.
  destruct (HR j Hj) as [HE HB]. split; [|exact HB]. rewrite HE. clear HE.
  rewrite (form_gs_rev_mul k w (at_ a)) by lia. reflexivity.
Qed.

Lemma ntt_gs_std2rev_spec k w a p :
  0 <= k <= 31 -> (0 < k -> eqQ (w ^ (2 ^ (k - 1))) (-1)) ->
  omega_table k w 1 p -> (forall i, 1 <= i < 2 ^ k -> can (at_ p i)) ->
  zlen a = 2 ^ k -> (forall i, 0 <= i < 2 ^ k -> can (at_ a i)) ->
  exists r, ntt_gs_std2rev a (2 ^ k) p = Ok r /\ zlen r = 2 ^ k
    /\ (forall j, 0 <= j < 2 ^ k ->
         eqQ (at_ r (bitrev k j)) (NTT (2 ^ k) w (at_ a) j) /\ can (at_ r j)).
Proof.
  intros Hk Hw Ht Hp HL Ha. assert (Hn := pow31 k Hk).
  destruct (gen_A_down_plain k (2 ^ k) (zw k w) (fun _ => can) Hk eq_refl) with
    (body0 := bfly0) (body := gs_bfly) (p := p) (a := a)
    as (r & E & HLr & HR); auto.
  { apply tower_omega. exact Hw. }
  { apply Ht. }
  { intros. apply zw_0. }
  { intros. apply bfly0_gs. lia. }
  { intros l j s Hl Hj. apply gs_bfly_gs; [lia | |].
    - apply Hp. apply entry_range; lia.
    - rewrite (omega_table_z k w 1 p Ht) by lia. qring. }
  exists r. split; [exact E|]. split; [exact HLr|]. intros j Hj.
  assert (R := bitrev_range k j ltac:(lia)).
  split; [|apply HR; lia].
  destruct (HR (bitrev k j) R) as [HE _]. rewrite HE. clear HE.
  rewrite (form_gs_std k w (at_ a)) by lia. reflexivity.
Qed.

Lemma nttmul_gs_std2rev_spec k w a p :
  0 <= k <= 31 -> eqQ (w ^ (2 ^ k)) (-1) ->
  mixed_table k w 1 p -> (forall i, 1 <= i < 2 ^ k -> can (at_ p i)) ->
  zlen a = 2 ^ k -> (forall i, 0 <= i < 2 ^ k -> can (at_ a i)) ->
  exists r, nttmul_gs_std2rev a (2 ^ k) p = Ok r /\ zlen r = 2 ^ k
    /\ (forall j, 0 <= j < 2 ^ k ->
         eqQ (at_ r (bitrev k j)) (w ^ j * NTT (2 ^ k) (w ^ 2) (at_ a) j) /\ can (at_ r j)).
Proof.
  intros Hk Hw Ht Hp HL Ha. assert (Hn := pow31 k Hk).
  destruct (gen_A_down_mul k (2 ^ k) (zp k w) (fun _ => can) Hk eq_refl) with
    (body := gs_bfly) (p := p) (a := a)
    as (r & E & HLr & HR); auto.
  { apply tower_psi. exact Hw. }
  { exact bfly0. }
  { apply Ht. }
  { intros l j s Hl Hj. apply gs_bfly_gs; [lia | |].
    - apply Hp. apply entry_range; lia.
    - rewrite (mixed_table_z k w 1 p Ht) by lia. qring. }
  exists r. split; [exact E|]. split; [exact HLr|]. intros j Hj.
  assert (R := bitrev_range k j ltac:(lia)).
  split; [|apply HR; lia].
  destruct (HR (bitrev k j) R) as [HE _]. rewrite HE. clear HE.
  rewrite (form_gs_std_mul k w (at_ a)) by lia. reflexivity.
Qed.


Lemma ntt_ct_rev2std_v1_spec k psi a p :
  0 <= k <= 31 -> eqQ (psi ^ (2 ^ k)) (-1) ->
  zlen p = 2 ^ k ->
  (forall i, 0 <= i < 2 ^ k -> can (at_ p i) /\ eqQ (at_ p i) (psi ^ i)) ->
  zlen a = 2 ^ k -> (forall i, 0 <= i < 2 ^ k -> can (at_ a i)) ->
  exists r, ntt_ct_rev2std_v1 a (2 ^ k) p = Ok r /\ zlen r = 2 ^ k
    /\ (forall j, 0 <= j < 2 ^ k ->
         eqQ (at_ r j) (NTT (2 ^ k) (psi ^ 2) (fun i => at_ a (bitrev k i)) j)
         /\ can (at_ r j)).
Proof.
  intros Hk Hw Hlp Hp HL Ha. assert (Hn := pow31 k Hk).
  destruct (gen_A_v1 k (2 ^ k) (zw k (psi ^ 2)) (fun _ => can) Hk eq_refl) with
    (body0 := bfly0) (body := ct_bfly) (p := p) (a := a)
    as (r & E & HLr & HR); auto.
  { apply tower_omega. intros Hk0. rewrite <- Z.pow_mul_r by lia.
    rewrite <- pow2_succ by lia. replace (k - 1 + 1) with k by lia. exact Hw. }
  { intros. apply zw_0. }
  { intros. apply bfly0_ct. lia. }
  { intros l j s Hl Hj.
    assert (0 < 2 ^ (k - l)) by (apply pow2_pos; lia).
    assert (0 <= j * 2 ^ (k - l) < 2 ^ k).
    { replace (2 ^ k) with (2 ^ l * 2 ^ (k - l)); [nia|].
      rewrite <- Z.pow_add_r by lia. f_equal. lia. }
    apply ct_bfly_ct; [lia | apply Hp; lia |].
    destruct (Hp (j * 2 ^ (k - l))) as [_ ->]; [lia|].
    unfold zw. rewrite <- Z.pow_mul_r by (try apply Z.mul_nonneg_nonneg; try apply Z.pow_nonneg; lia).
    replace (2 * (2 ^ (k - (l + 1)) * j)) with (j * 2 ^ (k - l)); [reflexivity|].
    replace (k - l) with (k - (l + 1) + 1) by lia. rewrite pow2_succ by lia. ring. }
  exists r. split; [exact E|]. split; [exact HLr|]. intros j Hj.
  destruct (HR j Hj) as [HE HB]. split; [|exact HB]. rewrite HE. clear HE.
  rewrite (form_ct_rev k (psi ^ 2) (at_ a)) by lia. reflexivity.
Qed.
