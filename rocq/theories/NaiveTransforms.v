(** The transforms of src/naive_ntt.c compute the NTT. *)

From Coq Require Import ZArith List Lia Setoid Morphisms.
From Verif Require Import CSem Spec Loops ModQ Stages Tower TransformGen Forms ModelNaive
  NttElem NaiveElem.
Import ListNotations.
Open Scope Z_scope.

Lemma ntt_ct_rev2std_naive_spec k w a p :
  0 <= k <= 31 -> (0 < k -> eqQ (w ^ (2 ^ (k - 1))) (-1)) ->
  omega_table k w 1 p -> (forall i, 1 <= i < 2 ^ k -> can (at_ p i)) ->
  zlen a = 2 ^ k -> (forall i, 0 <= i < 2 ^ k -> can1 (at_ a i)) ->
  exists r, ntt_ct_rev2std_naive a (2 ^ k) p 12289 = Ok r /\ zlen r = 2 ^ k
    /\ (forall j, 0 <= j < 2 ^ k ->
         eqQ (at_ r j) (NTT (2 ^ k) w (fun i => at_ a (bitrev k i)) j) /\ can1 (at_ r j)).
Proof.
  intros Hk Hw Ht Hp HL Ha. assert (Hn := pow31 k Hk).
  destruct (gen_A_up_plain k (2 ^ k) (zw k w) (fun _ => can1) Hk eq_refl) with
    (body0 := (bfly0_naive 12289)) (body := (ct_bfly_naive 12289)) (p := p) (a := a)
    as (r & E & HLr & HR); auto.
  { apply tower_omega. exact Hw. }
  { apply Ht. }
  { intros. apply zw_0. }
  { intros. apply bfly0_naive_ct. lia. }
  { intros l j s Hl Hj. apply ct_bfly_naive_ct; [lia | |].
    - apply Hp. apply entry_range; lia.
    - rewrite (omega_table_z k w 1 p Ht) by lia. qring. }
  exists r. split; [exact E|]. split; [exact HLr|]. intros j Hj.
  destruct (HR j Hj) as [HE HB]. split; [|exact HB]. rewrite HE. clear HE.
  rewrite (form_ct_rev k w (at_ a)) by lia. reflexivity.
Qed.

Lemma mulntt_ct_rev2std_naive_spec k w a p :
  0 <= k <= 31 -> eqQ (w ^ (2 ^ k)) (-1) ->
  mixed_table k w 1 p -> (forall i, 1 <= i < 2 ^ k -> can (at_ p i)) ->
  zlen a = 2 ^ k -> (forall i, 0 <= i < 2 ^ k -> can1 (at_ a i)) ->
  exists r, mulntt_ct_rev2std_naive a (2 ^ k) p 12289 = Ok r /\ zlen r = 2 ^ k
    /\ (forall j, 0 <= j < 2 ^ k ->
         eqQ (at_ r j) (NTT (2 ^ k) (w ^ 2) (fun i => at_ a (bitrev k i) * w ^ i) j) /\ can1 (at_ r j)).
Proof.
  intros Hk Hw Ht Hp HL Ha. assert (Hn := pow31 k Hk).
  destruct (gen_A_up_mul k (2 ^ k) (zp k w) (fun _ => can1) Hk eq_refl) with
    (body := (ct_bfly_naive 12289)) (p := p) (a := a)
    as (r & E & HLr & HR); auto.
  { apply tower_psi. exact Hw. }
  { exact (bfly0_naive 12289). }
  { apply Ht. }
  { intros l j s Hl Hj. apply ct_bfly_naive_ct; [lia | |].
    - apply Hp. apply entry_range; lia.
    - rewrite (mixed_table_z k w 1 p Ht) by lia. qring. }
  exists r. split; [exact E|]. split; [exact HLr|]. intros j Hj.
  destruct (HR j Hj) as [HE HB]. split; [|exact HB]. rewrite HE. clear HE.
  rewrite (form_ct_rev_mul k w (at_ a)) by lia. reflexivity.
Qed.

Lemma ntt_ct_std2rev_naive_spec k w a p :
  0 <= k <= 31 -> (0 < k -> eqQ (w ^ (2 ^ (k - 1))) (-1)) ->
  omega_table_rev k w 1 p -> (forall i, 1 <= i < 2 ^ k -> can (at_ p i)) ->
  zlen a = 2 ^ k -> (forall i, 0 <= i < 2 ^ k -> can1 (at_ a i)) ->
  exists r, ntt_ct_std2rev_naive a (2 ^ k) p 12289 = Ok r /\ zlen r = 2 ^ k
    /\ (forall j, 0 <= j < 2 ^ k ->
         eqQ (at_ r (bitrev k j)) (NTT (2 ^ k) w (at_ a) j) /\ can1 (at_ r j)).
Proof.
  intros Hk Hw Ht Hp HL Ha. assert (Hn := pow31 k Hk).
  destruct (gen_B_up_plain k (2 ^ k) (zw k w) (fun _ => can1) Hk eq_refl) with
    (body0 := (bfly0_naive 12289)) (body := (ct_bfly_naive 12289)) (p := p) (a := a)
    as (r & E & HLr & HR); auto.
  { apply tower_omega. exact Hw. }
  { apply Ht. }
  { intros. apply zw_0. }
  { intros. apply bfly0_naive_ct. lia. }
  { intros l j h s Hl Hj Hh. apply ct_bfly_naive_ct; [lia | |].
    - apply Hp. apply entry_range; lia.
    - rewrite (omega_table_rev_z k w 1 p Ht) by lia. qring. }
  exists r. split; [exact E|]. split; [exact HLr|]. intros j Hj.
  assert (R := bitrev_range k j ltac:(lia)).
  split; [|apply HR; lia].
  destruct (HR (bitrev k j) R) as [HE _]. rewrite HE. clear HE.
  rewrite (form_ct_std k w (at_ a)) by lia. reflexivity.
Qed.

Lemma mulntt_ct_std2rev_naive_spec k w a p :
  0 <= k <= 31 -> eqQ (w ^ (2 ^ k)) (-1) ->
  mixed_table_rev k w 1 p -> (forall i, 1 <= i < 2 ^ k -> can (at_ p i)) ->
  zlen a = 2 ^ k -> (forall i, 0 <= i < 2 ^ k -> can1 (at_ a i)) ->
  exists r, mulntt_ct_std2rev_naive a (2 ^ k) p 12289 = Ok r /\ zlen r = 2 ^ k
    /\ (forall j, 0 <= j < 2 ^ k ->
         eqQ (at_ r (bitrev k j)) (NTT (2 ^ k) (w ^ 2) (fun i => at_ a i * w ^ i) j) /\ can1 (at_ r j)).
Proof.
  intros Hk Hw Ht Hp HL Ha. assert (Hn := pow31 k Hk).
  destruct (gen_B_up_mul k (2 ^ k) (zp k w) (fun _ => can1) Hk eq_refl) with
    (body := (ct_bfly_naive 12289)) (p := p) (a := a)
    as (r & E & HLr & HR); auto.
  { apply tower_psi. exact Hw. }
  { exact (bfly0_naive 12289). }
  { apply Ht. }
  { intros l j h s Hl Hj Hh. apply ct_bfly_naive_ct; [lia | |].
    - apply Hp. apply entry_range; lia.
    - rewrite (mixed_table_rev_z k w 1 p Ht) by lia. qring. }
  exists r. split; [exact E|]. split; [exact HLr|]. intros j Hj.
  assert (R := bitrev_range k j ltac:(lia)).
  split; [|apply HR; lia].
  destruct (HR (bitrev k j) R) as [HE _]. rewrite HE. clear HE.
  rewrite (form_ct_std_mul k w (at_ a)) by lia. reflexivity.
Qed.

Lemma ntt_gs_rev2std_naive_spec k w a p :
  0 <= k <= 31 -> (0 < k -> eqQ (w ^ (2 ^ (k - 1))) (-1)) ->
  omega_table_rev k w 1 p -> (forall i, 1 <= i < 2 ^ k -> can (at_ p i)) ->
  zlen a = 2 ^ k -> (forall i, 0 <= i < 2 ^ k -> can1 (at_ a i)) ->
  exists r, ntt_gs_rev2std_naive a (2 ^ k) p 12289 = Ok r /\ zlen r = 2 ^ k
    /\ (forall j, 0 <= j < 2 ^ k ->
         eqQ (at_ r j) (NTT (2 ^ k) w (fun i => at_ a (bitrev k i)) j) /\ can1 (at_ r j)).
Proof.
  intros Hk Hw Ht Hp HL Ha. assert (Hn := pow31 k Hk).
  destruct (gen_B_down_plain k (2 ^ k) (zw k w) (fun _ => can1) Hk eq_refl) with
    (body0 := (bfly0_naive 12289)) (body := (gs_bfly_naive 12289)) (p := p) (a := a)
    as (r & E & HLr & HR); auto.
  { apply tower_omega. exact Hw. }
  { apply Ht. }
  { intros. apply zw_0. }
  { intros. apply bfly0_naive_gs. lia. }
  { intros l j h s Hl Hj Hh. apply gs_bfly_naive_gs; [lia | |].
    - apply Hp. apply entry_range; lia.
    - rewrite (omega_table_rev_z k w 1 p Ht) by lia. qring. }
  exists r. split; [exact E|]. split; [exact HLr|]. intros j Hj.
  destruct (HR j Hj) as [HE HB]. split; [|exact HB]. rewrite HE. clear HE.
  rewrite (form_gs_rev k w (at_ a)) by lia. reflexivity.
Qed.

Lemma nttmul_gs_rev2std_naive_spec k w a p :
  0 <= k <= 31 -> eqQ (w ^ (2 ^ k)) (-1) ->
  mixed_table_rev k w 1 p -> (forall i, 1 <= i < 2 ^ k -> can (at_ p i)) ->
  zlen a = 2 ^ k -> (forall i, 0 <= i < 2 ^ k -> can1 (at_ a i)) ->
  exists r, nttmul_gs_rev2std_naive a (2 ^ k) p 12289 = Ok r /\ zlen r = 2 ^ k
    /\ (forall j, 0 <= j < 2 ^ k ->
         eqQ (at_ r j) (w ^ j * NTT (2 ^ k) (w ^ 2) (fun i => at_ a (bitrev k i)) j) /\ can1 (at_ r j)).
Proof.
  intros Hk Hw Ht Hp HL Ha. assert (Hn := pow31 k Hk).
  destruct (gen_B_down_mul k (2 ^ k) (zp k w) (fun _ => can1) Hk eq_refl) with
    (body := (gs_bfly_naive 12289)) (p := p) (a := a)
    as (r & E & HLr & HR); auto.
  { apply tower_psi. exact Hw. }
  { exact (bfly0_naive 12289). }
  { apply Ht. }
  { intros l j h s Hl Hj Hh. apply gs_bfly_naive_gs; [lia | |].
    - apply Hp. apply entry_range; lia.
    - rewrite (mixed_table_rev_z k w 1 p Ht) by lia. qring. }
  exists r. split; [exact E|]. split; [exact HLr|]. intros j Hj.
  destruct (HR j Hj) as [HE HB]. split; [|exact HB]. rewrite HE. clear HE.
  rewrite (form_gs_rev_mul k w (at_ a)) by lia. reflexivity.
Qed.

Lemma ntt_gs_std2rev_naive_spec k w a p :
  0 <= k <= 31 -> (0 < k -> eqQ (w ^ (2 ^ (k - 1))) (-1)) ->
  omega_table k w 1 p -> (forall i, 1 <= i < 2 ^ k -> can (at_ p i)) ->
  zlen a = 2 ^ k -> (forall i, 0 <= i < 2 ^ k -> can1 (at_ a i)) ->
  exists r, ntt_gs_std2rev_naive a (2 ^ k) p 12289 = Ok r /\ zlen r = 2 ^ k
    /\ (forall j, 0 <= j < 2 ^ k ->
         eqQ (at_ r (bitrev k j)) (NTT (2 ^ k) w (at_ a) j) /\ can1 (at_ r j)).
Proof.
  intros Hk Hw Ht Hp HL Ha. assert (Hn := pow31 k Hk).
  destruct (gen_A_down_plain k (2 ^ k) (zw k w) (fun _ => can1) Hk eq_refl) with
    (body0 := (bfly0_naive 12289)) (body := (gs_bfly_naive 12289)) (p := p) (a := a)
    as (r & E & HLr & HR); auto.
  { apply tower_omega. exact Hw. }
  { apply Ht. }
  { intros. apply zw_0. }
  { intros. apply bfly0_naive_gs. lia. }
  { intros l j s Hl Hj. apply gs_bfly_naive_gs; [lia | |].
    - apply Hp. apply entry_range; lia.
    - rewrite (omega_table_z k w 1 p Ht) by lia. qring. }
  exists r. split; [exact E|]. split; [exact HLr|]. intros j Hj.
  assert (R := bitrev_range k j ltac:(lia)).
  split; [|apply HR; lia].
  destruct (HR (bitrev k j) R) as [HE _]. rewrite HE. clear HE.
  rewrite (form_gs_std k w (at_ a)) by lia. reflexivity.
Qed.

Lemma nttmul_gs_std2rev_naive_spec k w a p :
  0 <= k <= 31 -> eqQ (w ^ (2 ^ k)) (-1) ->
  mixed_table k w 1 p -> (forall i, 1 <= i < 2 ^ k -> can (at_ p i)) ->
  zlen a = 2 ^ k -> (forall i, 0 <= i < 2 ^ k -> can1 (at_ a i)) ->
  exists r, nttmul_gs_std2rev_naive a (2 ^ k) p 12289 = Ok r /\ zlen r = 2 ^ k
    /\ (forall j, 0 <= j < 2 ^ k ->
         eqQ (at_ r (bitrev k j)) (w ^ j * NTT (2 ^ k) (w ^ 2) (at_ a) j) /\ can1 (at_ r j)).
Proof.
  intros Hk Hw Ht Hp HL Ha. assert (Hn := pow31 k Hk).
  destruct (gen_A_down_mul k (2 ^ k) (zp k w) (fun _ => can1) Hk eq_refl) with
    (body := (gs_bfly_naive 12289)) (p := p) (a := a)
    as (r & E & HLr & HR); auto.
  { apply tower_psi. exact Hw. }
  { exact (bfly0_naive 12289). }
  { apply Ht. }
  { intros l j s Hl Hj. apply gs_bfly_naive_gs; [lia | |].
    - apply Hp. apply entry_range; lia.
    - rewrite (mixed_table_z k w 1 p Ht) by lia. qring. }
  exists r. split; [exact E|]. split; [exact HLr|]. intros j Hj.
  assert (R := bitrev_range k j ltac:(lia)).
  split; [|apply HR; lia].
  destruct (HR (bitrev k j) R) as [HE _]. rewrite HE. clear HE.
  rewrite (form_gs_std_mul k w (at_ a)) by lia. reflexivity.
Qed.


