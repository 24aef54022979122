(** From the sums produced by the loop nests to the NTT of Spec.v, and from
    the table descriptions of Spec.v to the evaluation points. *)

From Coq Require Import ZArith List Lia Setoid Morphisms.
From Verif Require Import CSem Spec Loops ModQ Tower TransformGen.
Import ListNotations.
Open Scope Z_scope.

(** Evaluation points. *)
Definition zw (k w l j : Z) : Z := w ^ (2 ^ (k - l) * j).
Definition zp (k psi l j : Z) : Z := psi ^ (2 ^ (k - l) * (2 * j + 1)).

Lemma zw_0 k w l : eqQ 1 (zw k w l 0).
Proof. unfold zw. rewrite Z.mul_0_r, Z.pow_0_r. reflexivity. Qed.

Lemma half_div k l : 0 <= l < k -> 2 ^ k / (2 * 2 ^ l) = 2 ^ (k - (l + 1)).
Proof.
  intros H. rewrite <- pow2_succ by lia. rewrite <- Z.pow_sub_r by lia. reflexivity.
Qed.

Section Tables.
Variables (k w c : Z) (p : list Z).

Lemma omega_table_z : omega_table k w c p -> forall l j, 0 <= l < k -> 0 <= j < 2 ^ l ->
  eqQ (at_ p (2 ^ l + j)) (c * zw k w (l + 1) j).
Proof.
  intros [_ H] l j Hl Hj. rewrite H by assumption. rewrite half_div by lia.
  unfold zw. rewrite <- Z.pow_mul_r by (try apply Z.pow_nonneg; lia). reflexivity.
Qed.

Lemma omega_table_rev_z : omega_table_rev k w c p -> forall l j, 0 <= l < k -> 0 <= j < 2 ^ l ->
  eqQ (at_ p (2 ^ l + j)) (c * zw k w (l + 1) (bitrev l j)).
Proof.
  intros [_ H] l j Hl Hj. rewrite H by assumption. rewrite half_div by lia.
  assert (R := bitrev_range l j ltac:(lia)).
  unfold zw. rewrite <- Z.pow_mul_r by (try apply Z.pow_nonneg; lia). reflexivity.
Qed.

Lemma mixed_pow e j : 0 <= e -> 0 <= j -> w ^ e * ((w ^ 2) ^ e) ^ j = w ^ (e * (2 * j + 1)).
Proof.
  intros. rewrite <- !Z.pow_mul_r by lia. rewrite <- Z.pow_add_r by nia. f_equal. ring.
Qed.

Lemma mixed_table_z : mixed_table k w c p -> forall l j, 0 <= l < k -> 0 <= j < 2 ^ l ->
  eqQ (at_ p (2 ^ l + j)) (c * zp k w (l + 1) j).
Proof.
  intros [_ H] l j Hl Hj. rewrite H by assumption. rewrite half_div by lia.
  rewrite mixed_pow by (try apply Z.pow_nonneg; lia). reflexivity.
Qed.

Lemma mixed_table_rev_z : mixed_table_rev k w c p -> forall l j, 0 <= l < k -> 0 <= j < 2 ^ l ->
  eqQ (at_ p (2 ^ l + j)) (c * zp k w (l + 1) (bitrev l j)).
Proof.
  intros [_ H] l j Hl Hj. rewrite H by assumption. rewrite half_div by lia.
  assert (R := bitrev_range l j ltac:(lia)).
  rewrite mixed_pow by (try apply Z.pow_nonneg; lia). reflexivity.
Qed.
End Tables.

(** ** Sums *)

Section Sums.
Variables (k w : Z) (a : Z -> Z).
Hypothesis Hk : 0 <= k.
Let n := 2 ^ k.

Lemma zw_k j : zw k w k j = w ^ j.
Proof. unfold zw. replace (k - k) with 0 by lia. f_equal. lia. Qed.
Lemma zp_k j : zp k w k j = w ^ (2 * j + 1).
Proof. unfold zp. replace (k - k) with 0 by lia. f_equal. lia. Qed.

(** ct_rev2std *)
Lemma form_ct_rev i : 0 <= i ->
  Sum n (fun r => a r * zw k w k i ^ bitrev k r) = NTT n w (fun m => a (bitrev k m)) i.
Proof.
  intros Hi. unfold NTT, n. rewrite <- (Sum_bitrev k (fun m => a (bitrev k m) * w ^ (m * i))) by lia.
  apply Sum_ext. intros r Hr. assert (R := bitrev_range k r Hk).
  rewrite bitrev_invol, zw_k by lia. rewrite <- Z.pow_mul_r by lia. f_equal. f_equal. ring.
Qed.

Lemma mixed_term m i : 0 <= m -> 0 <= i -> (w ^ (2 * i + 1)) ^ m = w ^ m * (w ^ 2) ^ (m * i).
Proof.
  intros. rewrite <- !Z.pow_mul_r by nia. rewrite <- Z.pow_add_r by nia. f_equal. ring.
Qed.

Lemma form_ct_rev_mul i : 0 <= i ->
  Sum n (fun r => a r * zp k w k i ^ bitrev k r)
  = NTT n (w ^ 2) (fun m => a (bitrev k m) * w ^ m) i.
Proof.
  intros Hi. unfold NTT, n.
  rewrite <- (Sum_bitrev k (fun m => a (bitrev k m) * w ^ m * (w ^ 2) ^ (m * i))) by lia.
  apply Sum_ext. intros r Hr. assert (R := bitrev_range k r Hk).
  rewrite bitrev_invol, zp_k by lia. rewrite mixed_term by lia. ring.
Qed.

(** ct_std2rev *)
Lemma form_ct_std i : 0 <= i < n ->
  Sum n (fun q => a q * zw k w k (bitrev k (bitrev k i)) ^ q) = NTT n w a i.
Proof.
  intros Hi. unfold NTT. apply Sum_ext. intros q Hq.
  rewrite bitrev_invol, zw_k by lia. rewrite <- Z.pow_mul_r by lia. f_equal. f_equal. ring.
Qed.

Lemma form_ct_std_mul i : 0 <= i < n ->
  Sum n (fun q => a q * zp k w k (bitrev k (bitrev k i)) ^ q)
  = NTT n (w ^ 2) (fun m => a m * w ^ m) i.
Proof.
  intros Hi. unfold NTT. apply Sum_ext. intros q Hq.
  rewrite bitrev_invol, zp_k by lia. rewrite mixed_term by lia. ring.
Qed.

(** gs_rev2std *)
Lemma form_gs_rev i : 0 <= i ->
  Sum n (fun q => a q * zw k w k (bitrev k q) ^ i) = NTT n w (fun m => a (bitrev k m)) i.
Proof.
  intros Hi. unfold NTT, n. rewrite <- (Sum_bitrev k (fun m => a (bitrev k m) * w ^ (m * i))) by lia.
  apply Sum_ext. intros r Hr. assert (R := bitrev_range k r Hk).
  rewrite bitrev_invol, zw_k by lia. rewrite <- Z.pow_mul_r by lia. reflexivity.
Qed.

Lemma mixed_term2 m i : 0 <= m -> 0 <= i -> (w ^ (2 * m + 1)) ^ i = w ^ i * (w ^ 2) ^ (m * i).
Proof.
  intros. rewrite <- !Z.pow_mul_r by nia. rewrite <- Z.pow_add_r by nia. f_equal. ring.
Qed.

Lemma form_gs_rev_mul i : 0 <= i ->
  Sum n (fun q => a q * zp k w k (bitrev k q) ^ i)
  = w ^ i * NTT n (w ^ 2) (fun m => a (bitrev k m)) i.
Proof.
  intros Hi. unfold NTT. rewrite <- Sum_mul_l. unfold n.
  rewrite <- (Sum_bitrev k (fun m => w ^ i * (a (bitrev k m) * (w ^ 2) ^ (m * i)))) by lia.
  apply Sum_ext. intros r Hr. assert (R := bitrev_range k r Hk).
  rewrite bitrev_invol, zp_k by lia. rewrite mixed_term2 by lia. ring.
Qed.

(** gs_std2rev *)
Lemma form_gs_std i : 0 <= i < n ->
  Sum n (fun q => a q * zw k w k q ^ bitrev k (bitrev k i)) = NTT n w a i.
Proof.
  intros Hi. unfold NTT. apply Sum_ext. intros q Hq.
  rewrite bitrev_invol, zw_k by lia. rewrite <- Z.pow_mul_r by lia. reflexivity.
Qed.

Lemma form_gs_std_mul i : 0 <= i < n ->
  Sum n (fun q => a q * zp k w k q ^ bitrev k (bitrev k i))
  = w ^ i * NTT n (w ^ 2) a i.
Proof.
  intros Hi. unfold NTT. rewrite <- Sum_mul_l. apply Sum_ext. intros q Hq.
  rewrite bitrev_invol, zp_k by lia. rewrite mixed_term2 by lia. ring.
Qed.
End Sums.

Lemma pow31 k : 0 <= k <= 31 -> 2 ^ k <= 2147483648.
Proof. intros. change 2147483648 with (2 ^ 31). apply Z.pow_le_mono_r; lia. Qed.

Lemma entry_range k l j : 0 <= l < k -> 0 <= j < 2 ^ l -> 1 <= 2 ^ l + j < 2 ^ k.
Proof.
  intros Hl Hj. assert (0 < 2 ^ l) by (apply pow2_pos; lia).
  assert (2 ^ (l + 1) <= 2 ^ k) by (apply Z.pow_le_mono_r; lia).
  rewrite pow2_succ in * by lia. lia.
Qed.
