(** Interpolation: every array is a transform.  Division and units modulo X^n + 1. *)

From Coq Require Import ZArith List Bool Lia Setoid Morphisms.
From Verif Require Import CSem Spec Loops ModQ Conv Forms Fermat Accum.
Import ListNotations.
Open Scope Z_scope.

Lemma unit_inv x : ~ eqQ x 0 -> eqQ (x ^ 12287 * x) 1.
Proof.
  intros H. transitivity (x ^ 12288); [|exact (fermat x H)].
  change 12288 with (Z.succ 12287). rewrite Z.pow_succ_r by lia. rewrite Z.mul_comm. reflexivity.
Qed.

Lemma psii_ex k psi : 0 <= k -> eqQ (psi ^ (2 ^ k)) (-1) -> exists p, eqQ (psi * p) 1.
Proof.
  intros Hk Hpsi. assert (Hn := pow2_pos k Hk). exists (psi ^ (2 * 2 ^ k - 1)). rewrite <- Z.pow_succ_r by lia.
  replace (Z.succ (2 * 2 ^ k - 1)) with (2 ^ k * 2) by lia. rewrite Z.pow_mul_r by lia. rewrite Hpsi. reflexivity.
Qed.
Lemma ninv_ex k : 0 <= k -> exists m, eqQ (m * 2 ^ k) 1.
Proof. intros Hk. exists ((2 ^ k) ^ 12287). apply unit_inv, pow2_nonzero, Hk. Qed.

Section D.
Variables (k psi : Z).
Hypothesis Hk : 0 <= k.
Hypothesis Hpsi : eqQ (psi ^ (2 ^ k)) (-1).
Let n := 2 ^ k.

Variables (psii ninv : Z).
Hypothesis psii_ok : eqQ (psi * psii) 1.
Hypothesis ninv_ok : eqQ (ninv * 2 ^ k) 1.

Lemma psi_pow i : 0 <= i -> eqQ (psii ^ i * psi ^ i) 1.
Proof. intros Hi. rewrite <- Z.pow_mul_l. rewrite (Z.mul_comm psii psi), psii_ok. rewrite Z.pow_1_l by lia. reflexivity. Qed.

(** The transform of the polynomial [f] *)
Definition hat (f : Z -> Z) (j : Z) : Z := NTT n (psi ^ 2) (fun i => f i * psi ^ i) j.

Definition interp (y : Z -> Z) (i : Z) : Z := ninv * psii ^ i * NTT n (psii ^ 2) y i.

Lemma omega_i : eqQ (psii ^ 2 * psi ^ 2) 1.
Proof. exact (psi_pow 2 ltac:(lia)). Qed.

Lemma hat_interp y j : 0 <= j < n -> eqQ (hat (interp y) j) (y j).
Proof.
  intros Hj. unfold hat.
  transitivity (NTT n (psi ^ 2) (fun i => ninv * NTT n (psii ^ 2) y i) j).
  - apply NTT_extQ. intros i Hi. unfold interp.
    transitivity (ninv * (psii ^ i * psi ^ i) * NTT n (psii ^ 2) y i); [qring|]. rewrite psi_pow by lia. qring.
  - rewrite NTT_scale.
    assert (X := ntt_inverse k (psii ^ 2) (psi ^ 2) Hk
      (fun H => inv_root k (psi ^ 2) (psii ^ 2) (omega_root k psi Hpsi) (omega_inv psi psii psii_ok) H) omega_i y j Hj).
    fold n in X. rewrite X. transitivity (ninv * 2 ^ k * y j); [unfold n; qring|]. rewrite ninv_ok. qring.
Qed.

Lemma hat_inj f g : (forall j, 0 <= j < n -> eqQ (hat f j) (hat g j)) -> forall i, 0 <= i < n -> eqQ (f i) (g i).
Proof.
  intros H i Hi.
  assert (one : forall f, eqQ (interp (hat f) i) (f i)).
  { intros f0. unfold interp, hat.
    assert (X := ntt_inverse k (psi ^ 2) (psii ^ 2) Hk (omega_root k psi Hpsi) (omega_inv psi psii psii_ok)
      (fun i => f0 i * psi ^ i) i Hi). fold n in X. rewrite X.
    transitivity (ninv * 2 ^ k * (psii ^ i * psi ^ i) * f0 i); [unfold n; qring|]. rewrite ninv_ok, psi_pow by lia. qring. }
  rewrite <- (one f), <- (one g). unfold interp. rewrite (NTT_extQ _ _ _ _ _ H). reflexivity.
Qed.

Lemma hat_mul a b j : 0 <= j -> eqQ (hat (negacyclic n a b) j) (hat a j * hat b j).
Proof. exact (ntt_negacyclic k psi Hk Hpsi a b j). Qed.

Lemma hat_delta j : eqQ (hat delta j) 1.
Proof. apply NTT_delta. exact (pow2_pos k Hk). Qed.

Lemma hat_ext f g j : (forall i, 0 <= i < n -> eqQ (f i) (g i)) -> eqQ (hat f j) (hat g j).
Proof. intros H. apply NTT_extQ. intros i Hi. rewrite (H i Hi). reflexivity. Qed.

(** ** Units and zero divisors *)
Variables (e u : Z).
Hypothesis Hu : eqQ (u * e) 1.

Lemma u_zero x : eqQ (e * x) 0 -> eqQ x 0.
Proof. intros H. transitivity (u * (e * x)); [transitivity (u * e * x); [rewrite Hu; qring|qring]|]. rewrite H. qring. Qed.

Lemma tr_zero x y j : tr k psi e x y -> 0 <= j < n -> (eqQ (at_ y (bitrev k j)) 0 <-> eqQ (hat (at_ x) j) 0).
Proof.
  intros T Hj. assert (X := T j Hj). fold n in X. fold (hat (at_ x) j) in X. split; intros H.
  - apply u_zero. rewrite <- X. exact H.
  - rewrite X, H. qring.
Qed.

Lemma tr_nonzero x y : tr k psi e x y -> (forall i, 0 <= i < n -> ~ eqQ (at_ y i) 0) ->
  forall j, 0 <= j < n -> ~ eqQ (hat (at_ x) j) 0.
Proof.
  intros T H j Hj X. apply (H (bitrev k j) (bitrev_range k j Hk)). apply (tr_zero x y j T Hj), X.
Qed.

Lemma unit_iff x y : tr k psi e x y ->
  ((exists b, forall i, 0 <= i < n -> eqQ (negacyclic n (at_ x) b i) (delta i))
   <-> (forall i, 0 <= i < n -> ~ eqQ (at_ y i) 0)).
Proof.
  intros T. split.
  - intros (b & Hb) i Hi Z0. rewrite <- (bitrev_invol k i) in Z0 by (unfold n in *; lia).
    assert (R := bitrev_range k i Hk). fold n in R. apply (tr_zero x y _ T R) in Z0.
    assert (X := hat_mul (at_ x) b (bitrev k i) ltac:(lia)). rewrite Z0 in X.
    rewrite (hat_ext _ _ _ Hb), hat_delta in X. exact (eqQ_1_0 X).
  - intros H. exists (interp (fun j => hat (at_ x) j ^ 12287)).
    apply hat_inj. intros j Hj. rewrite hat_mul, hat_delta, hat_interp by lia. rewrite Z.mul_comm.
    apply unit_inv, (tr_nonzero x y T H j Hj).
Qed.

Lemma unit_cancel x y : tr k psi e x y -> (forall i, 0 <= i < n -> ~ eqQ (at_ y i) 0) ->
  forall b c, (forall i, 0 <= i < n -> eqQ (negacyclic n (at_ x) b i) (negacyclic n (at_ x) c i)) ->
  forall i, 0 <= i < n -> eqQ (b i) (c i).
Proof.
  intros T H b c E. apply hat_inj. intros j Hj.
  apply (eqQ_cancel (hat (at_ x) j) (hat (at_ x) j ^ 12287)); [exact (unit_inv _ (tr_nonzero x y T H j Hj))|].
  rewrite <- !hat_mul by lia. apply hat_ext, E.
Qed.

Lemma zero_divisor x y i : tr k psi e x y -> 0 <= i < n -> eqQ (at_ y i) 0 ->
  exists b, (forall m, 0 <= m < n -> eqQ (negacyclic n (at_ x) b m) 0) /\ exists m, 0 <= m < n /\ ~ eqQ (b m) 0.
Proof.
  intros T Hi Z0. rewrite <- (bitrev_invol k i) in Z0 by (unfold n in *; lia).
  assert (R := bitrev_range k i Hk). fold n in R. set (j := bitrev k i) in *. apply (tr_zero x y _ T R) in Z0.
  set (b := interp (fun m => if m =? j then 1 else 0)). exists b. split.
  - apply (hat_inj _ (fun _ => 0)). intros m Hm. rewrite hat_mul by lia. unfold b. rewrite hat_interp by lia.
    unfold hat at 2. rewrite NTT_zero by reflexivity. destruct (Z.eqb_spec m j) as [->|_]; [rewrite Z0; reflexivity|qring].
  - destruct (existsb (fun m => negb (b (Z.of_nat m) mod Q =? 0)) (seq 0 (Z.to_nat n))) eqn:EX.
    + apply existsb_exists in EX as (m & Hm & X). apply in_seq in Hm. exists (Z.of_nat m). split; [lia|].
      intros Y. apply negb_true_iff, Z.eqb_neq in X. apply X. exact Y.
    + exfalso. apply eqQ_1_0. transitivity (hat b j); [unfold b; rewrite hat_interp by exact R; rewrite Z.eqb_refl; reflexivity|].
      transitivity (hat (fun _ => 0) j); [|apply NTT_zero; reflexivity]. apply hat_ext. intros m Hm.
      assert (X := existsb_exists (fun m => negb (b (Z.of_nat m) mod Q =? 0)) (seq 0 (Z.to_nat n))).
      rewrite EX in X. destruct (Z.eqb_spec (b m mod Q) 0) as [Y|Y]; [exact Y|].
      enough (false = true) by discriminate. apply X. exists (Z.to_nat m). split; [apply in_seq; lia|].
      rewrite Z2Nat.id by lia. apply negb_true_iff, Z.eqb_neq, Y.
Qed.

(** ** What an inverse half returns *)
Variables (w v : Z).
Hypothesis Hv : eqQ (v * (w * e * e)) 1.

Lemma back_any (pin : Z -> Prop) (g : list Z -> res (list Z)) (R : Z -> Prop) :
  (forall x A B, zlen x = n -> (forall i, 0 <= i < n -> pin (at_ x i)) ->
    (forall j, 0 <= j < n -> eqQ (at_ x (bitrev k j)) (w * e * e *
       (NTT n (psi ^ 2) (fun i => A i * psi ^ i) j * NTT n (psi ^ 2) (fun i => B i * psi ^ i) j))) ->
    exists r, g x = Ok r /\ zlen r = n /\ (forall m, 0 <= m < n ->
       eqQ (at_ r m) (negacyclic n A B m) /\ R (at_ r m))) ->
  forall x, zlen x = n -> (forall i, 0 <= i < n -> pin (at_ x i)) ->
  exists r, g x = Ok r /\ zlen r = n /\ (forall m, 0 <= m < n -> R (at_ r m))
    /\ (forall j, 0 <= j < n -> eqQ (at_ x (bitrev k j)) (w * e * e * hat (at_ r) j)).
Proof.
  intros HG x HL HI. set (f := interp (fun j => v * at_ x (bitrev k j))).
  assert (Hf : forall j, 0 <= j < n -> eqQ (at_ x (bitrev k j)) (w * e * e * hat f j)).
  { intros j Hj. unfold f. rewrite hat_interp by exact Hj.
    transitivity (v * (w * e * e) * at_ x (bitrev k j)); [rewrite Hv; qring|qring]. }
  destruct (HG x f delta HL HI) as (r & E & L & HR).
  - intros j Hj. fold (hat f j). fold (hat delta j). rewrite (Hf j Hj), hat_delta. qring.
  - exists r. split; [exact E|]. split; [exact L|]. split; [intros m Hm; apply HR, Hm|].
    intros j Hj. rewrite (Hf j Hj). rewrite (hat_ext (at_ r) f); [reflexivity|].
    intros i Hi. rewrite (proj1 (HR i Hi)). apply negacyclic_delta, Hi.
Qed.

Lemma divide a A c C d q : tr k psi e a A -> tr k psi e c C ->
  (forall i, 0 <= i < n -> eqQ (at_ A i * at_ d i) (w * e * e * at_ C i)) ->
  (forall j, 0 <= j < n -> eqQ (at_ d (bitrev k j)) (w * e * e * hat (at_ q) j)) ->
  forall i, 0 <= i < n -> eqQ (negacyclic n (at_ a) (at_ q) i) (at_ c i).
Proof.
  intros TA TC HD HQ. apply hat_inj. intros j Hj. rewrite hat_mul by lia.
  assert (X := HD _ (bitrev_range k j Hk)). rewrite (HQ j Hj), (TA j Hj), (TC j Hj) in X. fold n in X.
  fold (hat (at_ a) j) in X. fold (hat (at_ c) j) in X.
  apply (eqQ_cancel (w * e * e * e) (u * v)).
  - transitivity ((u * e) * (v * (w * e * e))); [qring|]. rewrite Hu, Hv. reflexivity.
  - transitivity (e * hat (at_ a) j * (w * e * e * hat (at_ q) j)); [qring|]. rewrite X. qring.
Qed.

(** Transform, then back: [a] up to the factor [w * e]; back, then transform: the same. *)
Lemma there_and_back a A r : tr k psi e a A ->
  (forall j, 0 <= j < n -> eqQ (at_ A (bitrev k j)) (w * e * e * hat (at_ r) j)) ->
  forall i, 0 <= i < n -> eqQ (w * e * at_ r i) (at_ a i).
Proof.
  intros TA HR. apply (hat_inj (fun i => w * e * at_ r i)). intros j Hj.
  assert (X := HR j Hj). rewrite (TA j Hj) in X. fold n in X. fold (hat (at_ a) j) in X.
  transitivity (w * e * hat (at_ r) j).
  - unfold hat. rewrite <- NTT_scale. apply NTT_extQ. intros i _. qring.
  - apply (eqQ_cancel e u); [exact Hu|]. rewrite X. qring.
Qed.

Lemma back_and_there d c D : tr k psi e c D ->
  (forall j, 0 <= j < n -> eqQ (at_ d (bitrev k j)) (w * e * e * hat (at_ c) j)) ->
  forall i, 0 <= i < n -> eqQ (w * e * at_ D i) (at_ d i).
Proof.
  intros TD HD i Hi. rewrite <- (bitrev_invol k i) by (unfold n in *; lia).
  assert (R := bitrev_range k i Hk). rewrite (HD _ R), (TD _ R). unfold hat. fold n. qring.
Qed.
End D.
