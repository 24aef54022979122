(** Arithmetic modulo Q, finite sums and bit reversal. *)

From Coq Require Import ZArith List Lia Setoid Morphisms.
From Verif Require Import Spec.
Import ListNotations.
Open Scope Z_scope.

Ltac Zify.zify_post_hook ::= Z.div_mod_to_equations.

(** ** Congruence *)

Lemma eqQ_iff a b : eqQ a b <-> exists m, a = b + m * Q.
Proof.
  unfold eqQ, Q. split.
  - intros H. exists (a / 12289 - b / 12289). lia.
  - intros [m ->]. apply Z.mod_add. lia.
Qed.

#[global] Instance eqQ_equiv : Equivalence eqQ.
Proof.
  unfold eqQ. split; [intros x; reflexivity | intros x y; congruence | intros x y z; congruence].
Qed.

#[global] Instance eqQ_add : Proper (eqQ ==> eqQ ==> eqQ) Z.add.
Proof.
  intros a b H c d H'. apply eqQ_iff in H as [m ->]. apply eqQ_iff in H' as [m' ->].
  apply eqQ_iff. exists (m + m'). ring.
Qed.

#[global] Instance eqQ_sub : Proper (eqQ ==> eqQ ==> eqQ) Z.sub.
Proof.
  intros a b H c d H'. apply eqQ_iff in H as [m ->]. apply eqQ_iff in H' as [m' ->].
  apply eqQ_iff. exists (m - m'). ring.
Qed.

#[global] Instance eqQ_mul : Proper (eqQ ==> eqQ ==> eqQ) Z.mul.
Proof.
  intros a b H c d H'. apply eqQ_iff in H as [m ->]. apply eqQ_iff in H' as [m' ->].
  apply eqQ_iff. exists (b * m' + m * d + m * m' * Q). ring.
Qed.

#[global] Instance eqQ_opp : Proper (eqQ ==> eqQ) Z.opp.
Proof.
  intros a b H. apply eqQ_iff in H as [m ->]. apply eqQ_iff. exists (- m). ring.
Qed.

#[global] Instance eqQ_pow : Proper (eqQ ==> eq ==> eqQ) Z.pow.
Proof.
  intros a b H e ? <-. destruct (Z.neg_nonneg_cases e) as [He|He].
  - rewrite !Z.pow_neg_r by lia. reflexivity.
  - revert e He. apply natlike_ind.
    + reflexivity.
    + intros e He IH. rewrite !Z.pow_succ_r by lia. now rewrite IH, H.
Qed.

Lemma eqQ_mod a : eqQ (a mod Q) a.
Proof. unfold eqQ. apply Z.mod_mod. discriminate. Qed.

Lemma eqQ_modn a : eqQ (a mod 12289) a.
Proof. exact (eqQ_mod a). Qed.

(** Equality of polynomial expressions, as integers. *)
Ltac qring := unfold eqQ; apply (f_equal (fun z => z mod Q)); ring.

(** Products by 8193, the inverse of 3. *)
Lemma inv3 x : eqQ (3 * (8193 * x)) x.
Proof. apply eqQ_iff. exists (2 * x). unfold Q. ring. Qed.

(** Cancellation of an invertible factor. *)
Lemma eqQ_cancel u v a b : eqQ (v * u) 1 -> eqQ (u * a) (u * b) -> eqQ a b.
Proof.
  intros H H'. transitivity (v * u * a).
  - rewrite H. qring.
  - transitivity (v * (u * a)); [qring|]. rewrite H'.
    transitivity (v * u * b); [qring|]. rewrite H. qring.
Qed.

(** ** Sums *)

Lemma sum_nat_ext n f g : (forall i, 0 <= i < Z.of_nat n -> f i = g i) -> sum_nat n f = sum_nat n g.
Proof.
  induction n as [|n IH]; intros H; [reflexivity|]. cbn [sum_nat].
  rewrite IH by (intros; apply H; lia). now rewrite H by lia.
Qed.

Lemma sum_nat_extQ n f g :
  (forall i, 0 <= i < Z.of_nat n -> eqQ (f i) (g i)) -> eqQ (sum_nat n f) (sum_nat n g).
Proof.
  induction n as [|n IH]; intros H; [reflexivity|]. cbn [sum_nat].
  rewrite IH by (intros; apply H; lia). now rewrite H by lia.
Qed.

Lemma Sum_ext n f g : (forall i, 0 <= i < n -> f i = g i) -> Sum n f = Sum n g.
Proof. intros H. apply sum_nat_ext. intros. apply H. lia. Qed.

Lemma Sum_extQ n f g : (forall i, 0 <= i < n -> eqQ (f i) (g i)) -> eqQ (Sum n f) (Sum n g).
Proof. intros H. apply sum_nat_extQ. intros. apply H. lia. Qed.

Lemma Sum_0 f : Sum 0 f = 0.
Proof. reflexivity. Qed.

Lemma Sum_succ n f : 0 <= n -> Sum (n + 1) f = Sum n f + f n.
Proof.
  intros H. unfold Sum. replace (Z.to_nat (n + 1)) with (S (Z.to_nat n)) by lia.
  cbn [sum_nat]. now rewrite Z2Nat.id.
Qed.

Lemma Sum_1 f : Sum 1 f = f 0.
Proof. change 1 with (0 + 1). rewrite Sum_succ by lia. reflexivity. Qed.

Lemma Sum_ind (R : Z -> Prop) :
  R 0 -> (forall n, 0 <= n -> R n -> R (n + 1)) -> forall n, 0 <= n -> R n.
Proof. intros H0 H1. apply natlike_ind; auto. Qed.

Lemma Sum_add n f g : Sum n (fun i => f i + g i) = Sum n f + Sum n g.
Proof.
  unfold Sum. induction (Z.to_nat n) as [|m IH]; [reflexivity|]. cbn [sum_nat]. rewrite IH. ring.
Qed.

Lemma Sum_sub n f g : Sum n (fun i => f i - g i) = Sum n f - Sum n g.
Proof.
  unfold Sum. induction (Z.to_nat n) as [|m IH]; [reflexivity|]. cbn [sum_nat]. rewrite IH. ring.
Qed.

Lemma Sum_mul_l n c f : Sum n (fun i => c * f i) = c * Sum n f.
Proof.
  unfold Sum. induction (Z.to_nat n) as [|m IH]; cbn [sum_nat]; [ring|]. rewrite IH. ring.
Qed.

Lemma Sum_mul_r n c f : Sum n (fun i => f i * c) = Sum n f * c.
Proof.
  unfold Sum. induction (Z.to_nat n) as [|m IH]; cbn [sum_nat]; [ring|]. rewrite IH. ring.
Qed.

Lemma Sum_const n c : 0 <= n -> Sum n (fun _ => c) = n * c.
Proof.
  revert n. apply Sum_ind; [rewrite Sum_0; ring|]. intros n Hn IH. rewrite Sum_succ, IH by lia. ring.
Qed.

Lemma Sum_zero n : Sum n (fun _ => 0) = 0.
Proof. unfold Sum. induction (Z.to_nat n); cbn [sum_nat]; lia. Qed.

Lemma Sum_split m n f : 0 <= m -> 0 <= n -> Sum (m + n) f = Sum m f + Sum n (fun i => f (m + i)).
Proof.
  intros Hm. revert n. apply Sum_ind.
  - rewrite Z.add_0_r, Sum_0. ring.
  - intros n Hn IH. rewrite Z.add_assoc, !Sum_succ by lia. rewrite IH. ring.
Qed.

Lemma Sum_double n f : 0 <= n -> Sum (2 * n) f = Sum n f + Sum n (fun i => f (n + i)).
Proof. intros. replace (2 * n) with (n + n) by lia. now apply Sum_split. Qed.

Lemma Sum_even_odd n f : 0 <= n ->
  Sum (2 * n) f = Sum n (fun i => f (2 * i)) + Sum n (fun i => f (2 * i + 1)).
Proof.
  revert n. apply Sum_ind; [reflexivity|].
  intros n Hn IH. replace (2 * (n + 1)) with (2 * n + 1 + 1) by lia.
  rewrite !Sum_succ by lia. rewrite IH. ring.
Qed.

Lemma Sum_swap m n f :
  Sum m (fun i => Sum n (fun j => f i j)) = Sum n (fun j => Sum m (fun i => f i j)).
Proof.
  unfold Sum. induction (Z.to_nat m) as [|k IH]; cbn [sum_nat].
  - symmetry. apply Sum_zero.
  - rewrite IH. set (a := Z.to_nat n).
    induction a as [|a IHa]; cbn [sum_nat]; [reflexivity|].
    rewrite <- IHa. ring.
Qed.

(** Only one non-zero term. *)
Lemma Sum_single n j f : 0 <= j < n ->
  (forall i, 0 <= i < n -> i <> j -> eqQ (f i) 0) -> eqQ (Sum n f) (f j).
Proof.
  intros Hj H.
  replace n with (j + (1 + (n - j - 1))) by lia.
  rewrite (Sum_split j) by lia. rewrite (Sum_split 1) by lia. rewrite Sum_1.
  rewrite (Sum_extQ j f (fun _ => 0)) by (intros; apply H; lia).
  rewrite (Sum_extQ (n - j - 1) _ (fun _ => 0)) by (intros; apply H; lia).
  rewrite !Sum_zero. replace (j + 0) with j by lia. qring.
Qed.

(** ** Powers *)

Lemma pow_mul_l a b e : (a * b) ^ e = a ^ e * b ^ e.
Proof. apply Z.pow_mul_l. Qed.

Lemma pow_sq_even a b e : 0 <= e -> eqQ (a ^ 2) b -> eqQ (a ^ (2 * e)) (b ^ e).
Proof. intros He H. rewrite Z.pow_mul_r by lia. now rewrite H. Qed.

Lemma pow_sq_odd a b e : 0 <= e -> eqQ (a ^ 2) b -> eqQ (a ^ (2 * e + 1)) (a * b ^ e).
Proof.
  intros He H. rewrite Z.pow_add_r by lia. rewrite Z.pow_mul_r by lia.
  rewrite H. rewrite Z.pow_1_r. qring.
Qed.

Lemma pow2_pos k : 0 <= k -> 0 < 2 ^ k.
Proof. intros. apply Z.pow_pos_nonneg; lia. Qed.

Lemma pow2_succ k : 0 <= k -> 2 ^ (k + 1) = 2 * 2 ^ k.
Proof. intros. rewrite Z.pow_add_r by lia. lia. Qed.

(** ** Bit reversal *)

Lemma bitrev_0 i : bitrev 0 i = 0.
Proof. reflexivity. Qed.

Lemma bitrev_succ k i : 0 <= k -> bitrev (k + 1) i = (i mod 2) * 2 ^ k + bitrev k (i / 2).
Proof.
  intros H. unfold bitrev. replace (Z.to_nat (k + 1)) with (S (Z.to_nat k)) by lia.
  cbn [bitrev_nat]. now rewrite Z2Nat.id.
Qed.

Lemma bitrev_range k i : 0 <= k -> 0 <= bitrev k i < 2 ^ k.
Proof.
  intros H. revert k H i. apply (Sum_ind (fun k => forall i, 0 <= bitrev k i < 2 ^ k)).
  - intros. rewrite bitrev_0. cbn. lia.
  - intros k Hk IH i. rewrite bitrev_succ, pow2_succ by lia.
    assert (H1 := IH (i / 2)). assert (H2 := Z.mod_pos_bound i 2 ltac:(lia)).
    assert (0 < 2 ^ k) by (apply pow2_pos; lia). nia.
Qed.

(** Low bit. *)
Lemma bitrev_even k b : 0 <= k -> bitrev (k + 1) (2 * b) = bitrev k b.
Proof.
  intros. rewrite bitrev_succ by lia.
  replace (2 * b mod 2) with 0 by lia. now replace (2 * b / 2) with b by lia.
Qed.

Lemma bitrev_odd k b : 0 <= k -> bitrev (k + 1) (2 * b + 1) = 2 ^ k + bitrev k b.
Proof.
  intros. rewrite bitrev_succ by lia.
  replace ((2 * b + 1) mod 2) with 1 by lia. replace ((2 * b + 1) / 2) with b by lia. lia.
Qed.

(** High bit. *)
Lemma bitrev_low k r : 0 <= k -> 0 <= r < 2 ^ k -> bitrev (k + 1) r = 2 * bitrev k r.
Proof.
  intros H. revert k H r.
  apply (Sum_ind (fun k => forall r, 0 <= r < 2 ^ k -> bitrev (k + 1) r = 2 * bitrev k r)).
  - intros r Hr. cbn in Hr. assert (r = 0) by lia. subst. reflexivity.
  - intros k Hk IH r Hr. rewrite pow2_succ in Hr by lia.
    rewrite (bitrev_succ (k + 1)), (bitrev_succ k r) by lia.
    rewrite IH by lia. rewrite pow2_succ by lia. ring.
Qed.

Lemma bitrev_high k r : 0 <= k -> 0 <= r < 2 ^ k ->
  bitrev (k + 1) (2 ^ k + r) = 2 * bitrev k r + 1.
Proof.
  intros H. revert k H r.
  apply (Sum_ind (fun k => forall r, 0 <= r < 2 ^ k ->
     bitrev (k + 1) (2 ^ k + r) = 2 * bitrev k r + 1)).
  - intros r Hr. cbn in Hr. assert (r = 0) by lia. subst. reflexivity.
  - intros k Hk IH r Hr. rewrite pow2_succ in * by lia.
    rewrite (bitrev_succ (k + 1)), (bitrev_succ k r) by lia.
    replace ((2 * 2 ^ k + r) mod 2) with (r mod 2) by lia.
    replace ((2 * 2 ^ k + r) / 2) with (2 ^ k + r / 2) by lia.
    rewrite IH by lia. rewrite pow2_succ by lia. ring.
Qed.

Lemma bitrev_invol k i : 0 <= k -> 0 <= i < 2 ^ k -> bitrev k (bitrev k i) = i.
Proof.
  intros H. revert k H i.
  apply (Sum_ind (fun k => forall i, 0 <= i < 2 ^ k -> bitrev k (bitrev k i) = i)).
  - intros i Hi. cbn in Hi. assert (i = 0) by lia. subst. reflexivity.
  - intros k Hk IH i Hi. rewrite pow2_succ in Hi by lia.
    assert (R := bitrev_range k (i / 2) Hk).
    destruct (Z.eq_dec (i mod 2) 0) as [E|E].
    + replace i with (2 * (i / 2)) at 1 by lia. rewrite bitrev_even by lia.
      rewrite bitrev_low by lia. rewrite IH by lia. lia.
    + replace i with (2 * (i / 2) + 1) at 1 by lia. rewrite bitrev_odd by lia.
      rewrite bitrev_high by lia. rewrite IH by lia. lia.
Qed.

Lemma bitrev_inj k i j : 0 <= k -> 0 <= i < 2 ^ k -> 0 <= j < 2 ^ k ->
  bitrev k i = bitrev k j -> i = j.
Proof.
  intros Hk Hi Hj E. rewrite <- (bitrev_invol k i), <- (bitrev_invol k j) by lia. now rewrite E.
Qed.

Lemma bitrev_zero k : 0 <= k -> bitrev k 0 = 0.
Proof.
  revert k. apply (Sum_ind (fun k => bitrev k 0 = 0)); [reflexivity|].
  intros k Hk IH. rewrite bitrev_succ by lia. change (0 mod 2) with 0. change (0 / 2) with 0. lia.
Qed.

Lemma Sum_bitrev k f : 0 <= k -> Sum (2 ^ k) (fun i => f (bitrev k i)) = Sum (2 ^ k) f.
Proof.
  intros H. revert k H f.
  apply (Sum_ind (fun k => forall f, Sum (2 ^ k) (fun i => f (bitrev k i)) = Sum (2 ^ k) f)).
  - reflexivity.
  - intros k Hk IH f. assert (0 < 2 ^ k) by (apply pow2_pos; lia).
    rewrite pow2_succ by lia. rewrite Sum_double by lia.
    rewrite (Sum_ext _ (fun i => f (bitrev (k + 1) i)) (fun i => f (2 * bitrev k i))).
    2:{ intros. now rewrite bitrev_low by lia. }
    rewrite (Sum_ext _ (fun i => f (bitrev (k + 1) (2 ^ k + i))) (fun i => f (2 * bitrev k i + 1))).
    2:{ intros. now rewrite bitrev_high by lia. }
    rewrite (IH (fun i => f (2 * i))), (IH (fun i => f (2 * i + 1))).
    now rewrite Sum_even_odd by lia.
Qed.
