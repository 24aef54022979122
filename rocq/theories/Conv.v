(** Inversion of the NTT and the negacyclic convolution theorem. *)

From Coq Require Import ZArith List Lia Setoid Morphisms.
From Verif Require Import Spec ModQ.
Import ListNotations.
Open Scope Z_scope.

Lemma one_pow_nat (e : Z) : 1 ^ e = if e <? 0 then 0 else 1.
Proof.
  destruct (Z.ltb_spec e 0); [apply Z.pow_neg_r; lia|apply Z.pow_1_l; lia].
Qed.

Lemma m1_pow_even e : 0 <= e -> (-1) ^ (2 * e) = 1.
Proof. intros. rewrite Z.pow_mul_r by lia. change ((-1) ^ 2) with 1. apply Z.pow_1_l. lia. Qed.

Lemma m1_pow_odd e : 0 <= e -> (-1) ^ (2 * e + 1) = -1.
Proof. intros. rewrite Z.pow_add_r by lia. rewrite m1_pow_even by lia. reflexivity. Qed.

(** Sum of the powers of a non-trivial root of unity. *)
Lemma geom_zero k : 0 <= k -> forall w d, (0 < k -> eqQ (w ^ (2 ^ (k - 1))) (-1)) ->
  0 < d < 2 ^ k -> eqQ (Sum (2 ^ k) (fun i => w ^ (i * d))) 0.
Proof.
  revert k. apply (Sum_ind (fun k => forall w d, (0 < k -> eqQ (w ^ (2 ^ (k - 1))) (-1)) ->
     0 < d < 2 ^ k -> eqQ (Sum (2 ^ k) (fun i => w ^ (i * d))) 0)).
  - intros w d _ Hd. cbn in Hd. lia.
  - intros k Hk IH w d Hw Hd. specialize (Hw ltac:(lia)).
    replace (k + 1 - 1) with k in Hw by lia.
    assert (Hp : 0 < 2 ^ k) by (apply pow2_pos; lia).
    rewrite pow2_succ in * by lia. rewrite Sum_double by lia. rewrite <- Sum_add.
    destruct (Z.Even_or_Odd d) as [[e ->]|[e ->]].
    + assert (Hw2 : 0 < k -> eqQ ((w ^ 2) ^ (2 ^ (k - 1))) (-1)).
      { intros H0. rewrite <- Z.pow_mul_r by (try apply Z.pow_nonneg; lia).
        rewrite <- Z.pow_succ_r by lia. replace (Z.succ (k - 1)) with k by lia. exact Hw. }
      assert (H := IH (w ^ 2) e Hw2 ltac:(lia)).
      transitivity (2 * Sum (2 ^ k) (fun i => (w ^ 2) ^ (i * e))).
      * rewrite <- Sum_mul_l. apply Sum_extQ. intros i Hi.
        replace ((2 ^ k + i) * (2 * e)) with (2 ^ k * (2 * e) + i * (2 * e)) by ring.
        rewrite Z.pow_add_r by nia. rewrite (Z.pow_mul_r w (2 ^ k)) by nia. rewrite Hw.
        rewrite m1_pow_even by lia.
        rewrite <- (Z.pow_mul_r w 2) by nia. replace (2 * (i * e)) with (i * (2 * e)) by ring. qring.
      * rewrite H. reflexivity.
    + rewrite (Sum_extQ _ _ (fun _ => 0)); [rewrite Sum_zero; reflexivity|].
      intros i Hi.
      replace ((2 ^ k + i) * (2 * e + 1)) with (2 ^ k * (2 * e + 1) + i * (2 * e + 1)) by ring.
      rewrite Z.pow_add_r by nia. rewrite (Z.pow_mul_r w (2 ^ k)) by nia. rewrite Hw.
      rewrite m1_pow_odd by lia. qring.
Qed.

Section Inverse.
Variables (k w wi : Z).
Hypothesis Hk : 0 <= k.
Let n := 2 ^ k.
Hypothesis Hw : 0 < k -> eqQ (w ^ (2 ^ (k - 1))) (-1).
Hypothesis Hwi : eqQ (w * wi) 1.

Lemma inv_pow e : 0 <= e -> eqQ (w ^ e * wi ^ e) 1.
Proof. intros He. rewrite <- Z.pow_mul_l. rewrite Hwi. rewrite Z.pow_1_l by lia. reflexivity. Qed.

Lemma inv_root : 0 < k -> eqQ (wi ^ (2 ^ (k - 1))) (-1).
Proof.
  intros H0. assert (H := inv_pow (2 ^ (k - 1)) ltac:(apply Z.pow_nonneg; lia)).
  rewrite Hw in H by lia.
  transitivity (- (-1 * wi ^ 2 ^ (k - 1))); [qring|]. rewrite H. reflexivity.
Qed.

Lemma orth a b : 0 <= a < n -> 0 <= b < n ->
  eqQ (Sum n (fun i => w ^ (i * a) * wi ^ (i * b))) (if a =? b then n else 0).
Proof.
  intros Ha Hb. destruct (Z.eqb_spec a b) as [->|Hab].
  - rewrite (Sum_extQ _ _ (fun _ => 1)).
    + rewrite Sum_const by lia. qring.
    + intros i Hi. apply inv_pow. nia.
  - destruct (Z.lt_trichotomy a b) as [H|[H|H]]; [|lia|].
    + rewrite (Sum_extQ _ _ (fun i => wi ^ (i * (b - a)))).
      * apply geom_zero; [lia|exact inv_root|unfold n in *; lia].
      * intros i Hi. replace (i * b) with (i * a + i * (b - a)) by ring.
        rewrite Z.pow_add_r by nia. rewrite Z.mul_assoc. rewrite inv_pow by nia. qring.
    + rewrite (Sum_extQ _ _ (fun i => w ^ (i * (a - b)))).
      * apply geom_zero; [lia|exact Hw|unfold n in *; lia].
      * intros i Hi. replace (i * a) with (i * (a - b) + i * b) by ring.
        rewrite Z.pow_add_r by nia. rewrite <- Z.mul_assoc. rewrite inv_pow by nia. qring.
Qed.

(** The inverse transform. *)
Lemma ntt_inverse x m : 0 <= m < n ->
  eqQ (NTT n wi (fun j => NTT n w x j) m) (n * x m).
Proof.
  intros Hm. unfold NTT.
  transitivity (Sum n (fun i => x i * Sum n (fun j => w ^ (j * i) * wi ^ (j * m)))).
  - rewrite (Sum_ext n _ (fun j => Sum n (fun i => x i * (w ^ (j * i) * wi ^ (j * m))))).
    + rewrite Sum_swap. apply Sum_extQ. intros i Hi. rewrite Sum_mul_l. reflexivity.
    + intros j Hj. rewrite <- Sum_mul_r. apply Sum_ext. intros i Hi.
      rewrite (Z.mul_comm i j). ring.
  - etransitivity.
    + apply (Sum_single n m); [assumption|]. intros i Hi Hne. rewrite (orth i m) by assumption.
      destruct (Z.eqb_spec i m); [contradiction|]. qring.
    + rewrite (orth m m) by assumption. rewrite Z.eqb_refl. qring.
Qed.
End Inverse.

(** NTT respects congruence and pointwise equality. *)
Lemma NTT_extQ n w x y j : (forall i, 0 <= i < n -> eqQ (x i) (y i)) -> eqQ (NTT n w x j) (NTT n w y j).
Proof. intros H. apply Sum_extQ. intros i Hi. now rewrite H by lia. Qed.

Lemma NTT_scale n w c x j : NTT n w (fun i => c * x i) j = c * NTT n w x j.
Proof. unfold NTT. rewrite <- Sum_mul_l. apply Sum_ext. intros. ring. Qed.

Lemma NTT_root n w w' x j : eqQ w w' -> eqQ (NTT n w x j) (NTT n w' x j).
Proof. intros H. apply Sum_extQ. intros i Hi. now rewrite H. Qed.

(** Evaluation of a negacyclic product at an [n]-th root of -1. *)
Lemma eval_negacyclic n a b z : 0 <= n -> eqQ (z ^ n) (-1) ->
  eqQ (Sum n (fun m => negacyclic n a b m * z ^ m))
      (Sum n (fun i => a i * z ^ i) * Sum n (fun i => b i * z ^ i)).
Proof.
  intros Hn Hz. unfold negacyclic.
  rewrite (Sum_ext n _ (fun m => Sum n (fun i =>
     (if i <=? m then a i * b (m - i) else - (a i * b (m - i + n))) * z ^ m)))
    by (intros; now rewrite Sum_mul_r).
  rewrite Sum_swap. rewrite <- Sum_mul_r. apply Sum_extQ. intros i Hi.
  replace n with (i + (n - i)) at 1 by lia. rewrite (Sum_split i (n - i)) by lia.
  rewrite (Sum_extQ i _ (fun m => a i * z ^ i * (b (n - i + m) * z ^ (n - i + m)))).
  2:{ intros m Hm. destruct (Z.leb_spec i m); [lia|].
      replace (m - i + n) with (n - i + m) by lia.
      transitivity (a i * b (n - i + m) * (z ^ i * z ^ (n - i + m))); [|qring].
      rewrite <- Z.pow_add_r by lia. replace (i + (n - i + m)) with (n + m) by lia.
      rewrite Z.pow_add_r by lia. rewrite Hz. qring. }
  rewrite (Sum_extQ (n - i) _ (fun m => a i * z ^ i * (b m * z ^ m))).
  2:{ intros m Hm. destruct (Z.leb_spec i (i + m)); [|lia].
      replace (i + m - i) with m by lia. rewrite Z.pow_add_r by lia. qring. }
  rewrite !Sum_mul_l.
  replace (Sum n (fun m => b m * z ^ m))
    with (Sum (n - i) (fun m => b m * z ^ m) + Sum i (fun m => b (n - i + m) * z ^ (n - i + m))).
  - qring.
  - rewrite <- Sum_split by lia. f_equal. lia.
Qed.

Section Convolution.
Variables (k psi psii : Z).
Hypothesis Hk : 0 <= k.
Let n := 2 ^ k.
Hypothesis Hpsi : eqQ (psi ^ n) (-1).
Hypothesis Hinv : eqQ (psi * psii) 1.

Lemma npos : 0 < n.
Proof. apply pow2_pos. exact Hk. Qed.

Lemma omega_root : 0 < k -> eqQ ((psi ^ 2) ^ (2 ^ (k - 1))) (-1).
Proof.
  intros H. rewrite <- Z.pow_mul_r by (try apply Z.pow_nonneg; lia).
  rewrite <- Z.pow_succ_r by lia. replace (Z.succ (k - 1)) with k by lia. exact Hpsi.
Qed.

Lemma psi_inv_root : eqQ (psii ^ n) (-1).
Proof.
  assert (Hn := npos).
  assert (H : eqQ (psi ^ n * psii ^ n) 1).
  { rewrite <- Z.pow_mul_l. rewrite Hinv. rewrite Z.pow_1_l by lia. reflexivity. }
  rewrite Hpsi in H. transitivity (- (-1 * psii ^ n)); [qring|]. rewrite H. reflexivity.
Qed.

Lemma omega_inv : eqQ (psi ^ 2 * psii ^ 2) 1.
Proof. rewrite <- Z.pow_mul_l. rewrite Hinv. reflexivity. Qed.

(** Transform of the scaled coefficients is evaluation at psi^(2j+1). *)
Lemma ntt_eval x j : 0 <= j ->
  NTT n (psi ^ 2) (fun i => x i * psi ^ i) j = Sum n (fun i => x i * (psi ^ (2 * j + 1)) ^ i).
Proof.
  intros Hj. unfold NTT. apply Sum_ext. intros i Hi.
  rewrite <- !Z.pow_mul_r by nia. rewrite <- Z.mul_assoc. rewrite <- Z.pow_add_r by nia.
  do 2 f_equal. ring.
Qed.

Lemma ntt_negacyclic a b j : 0 <= j ->
  eqQ (NTT n (psi ^ 2) (fun i => negacyclic n a b i * psi ^ i) j)
      (NTT n (psi ^ 2) (fun i => a i * psi ^ i) j * NTT n (psi ^ 2) (fun i => b i * psi ^ i) j).
Proof.
  intros Hj. assert (Hn := npos). rewrite !ntt_eval by lia. apply eval_negacyclic; [lia|].
  rewrite <- Z.pow_mul_r by lia. rewrite Z.mul_comm. rewrite Z.pow_mul_r by lia. rewrite Hpsi.
  rewrite m1_pow_odd by lia. reflexivity.
Qed.

(** The whole product: transform the scaled inputs, multiply, transform back;
    component [m] is [n psi^m] times the coefficient of the product. *)
Lemma convolution a b c m :
  (forall j, 0 <= j < n -> eqQ (c j)
     (NTT n (psi ^ 2) (fun i => a i * psi ^ i) j * NTT n (psi ^ 2) (fun i => b i * psi ^ i) j)) ->
  0 <= m < n ->
  eqQ (NTT n (psii ^ 2) c m) (n * (negacyclic n a b m * psi ^ m)).
Proof.
  intros Hc Hm.
  rewrite (NTT_extQ n (psii ^ 2) c (fun j => NTT n (psi ^ 2) (fun i => negacyclic n a b i * psi ^ i) j)).
  - apply (ntt_inverse k (psi ^ 2) (psii ^ 2) Hk omega_root omega_inv
             (fun i => negacyclic n a b i * psi ^ i)). exact Hm.
  - intros j Hj. rewrite Hc by lia. symmetry. apply ntt_negacyclic. lia.
Qed.

(** Final scaling by [c = s * psii^m] with [s * n = u]. *)
Lemma unscale a b c m s u x :
  (forall j, 0 <= j < n -> eqQ (c j)
     (NTT n (psi ^ 2) (fun i => a i * psi ^ i) j * NTT n (psi ^ 2) (fun i => b i * psi ^ i) j)) ->
  0 <= m < n -> eqQ (s * n) u -> eqQ x (s * psii ^ m) ->
  eqQ (NTT n (psii ^ 2) c m * x) (u * negacyclic n a b m).
Proof.
  intros Hc Hm Hs Hx. rewrite (convolution a b c m Hc Hm), Hx.
  transitivity ((s * n) * (psi ^ m * psii ^ m) * negacyclic n a b m); [qring|].
  rewrite Hs. rewrite <- Z.pow_mul_l. rewrite Hinv. rewrite Z.pow_1_l by lia. qring.
Qed.

Lemma unscale_mixed a b c m s u :
  (forall j, 0 <= j < n -> eqQ (c j)
     (NTT n (psi ^ 2) (fun i => a i * psi ^ i) j * NTT n (psi ^ 2) (fun i => b i * psi ^ i) j)) ->
  0 <= m < n -> eqQ (s * n) u ->
  eqQ (psii ^ m * NTT n (psii ^ 2) c m * s) (u * negacyclic n a b m).
Proof.
  intros Hc Hm Hs. rewrite <- (unscale a b c m s u (s * psii ^ m) Hc Hm Hs) by reflexivity.
  qring.
Qed.
End Convolution.
