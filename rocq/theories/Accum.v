(** Sums of products computed with one inverse transform. *)

From Coq Require Import ZArith List Bool Lia Setoid Morphisms.
From Verif Require Import CSem Spec Loops ModQ Conv Forms ModelHalves.
Import ListNotations.
Open Scope Z_scope.

Definition delta (i : Z) : Z := if i =? 0 then 1 else 0.

Lemma NTT_plus n w x y j : NTT n w (fun i => x i + y i) j = NTT n w x j + NTT n w y j.
Proof. unfold NTT. rewrite <- Sum_add. apply Sum_ext. intros. ring. Qed.

Lemma NTT_zero n w x j : (forall i, x i = 0) -> eqQ (NTT n w x j) 0.
Proof.
  intros H. transitivity (NTT n w (fun i => 0 * x i) j); [|rewrite NTT_scale; reflexivity].
  apply NTT_extQ. intros i _. rewrite H. reflexivity.
Qed.

Lemma negacyclic_delta n a m : 0 <= m < n -> eqQ (negacyclic n a delta m) (a m).
Proof.
  intros Hm. unfold negacyclic.
  rewrite (Sum_single n m _ Hm).
  - rewrite Z.leb_refl, Z.sub_diag. cbn. rewrite Z.mul_1_r. reflexivity.
  - intros i Hi Ne. unfold delta. destruct (Z.leb_spec i m).
    + rewrite (proj2 (Z.eqb_neq (m - i) 0)) by lia. rewrite Z.mul_0_r. reflexivity.
    + rewrite (proj2 (Z.eqb_neq (m - i + n) 0)) by lia. rewrite Z.mul_0_r. reflexivity.
Qed.

Lemma NTT_delta n w psi j : 0 < n -> eqQ (NTT n w (fun i => delta i * psi ^ i) j) 1.
Proof.
  intros Hn. unfold NTT. rewrite (Sum_single n 0); [reflexivity|lia|].
  intros i Hi Ne. unfold delta. rewrite (proj2 (Z.eqb_neq i 0)) by lia. reflexivity.
Qed.

Section A.
Variables (k psi e w : Z).
Hypothesis Hk : 0 <= k.
Hypothesis Hpsi : eqQ (psi ^ (2 ^ k)) (-1).
Let n := 2 ^ k.

(** [y] is, up to the factor [e], the transform of [x]. *)
Definition tr (x y : list Z) : Prop := forall j, 0 <= j < n ->
  eqQ (at_ y (bitrev k j)) (e * NTT n (psi ^ 2) (fun i => at_ x i * psi ^ i) j).

Lemma accum ab AB : Forall2 (fun p q => tr (fst p) (fst q) /\ tr (snd p) (snd q)) ab AB ->
  forall j, 0 <= j < n ->
  eqQ (w * dot AB (bitrev k j)) (w * e * e *
    (NTT n (psi ^ 2) (fun i => negacyclics n ab i * psi ^ i) j
     * NTT n (psi ^ 2) (fun i => delta i * psi ^ i) j)).
Proof.
  intros HF j Hj. rewrite NTT_delta by lia.
  assert (E : eqQ (dot AB (bitrev k j)) (e * e * NTT n (psi ^ 2) (fun i => negacyclics n ab i * psi ^ i) j)).
  { induction HF as [|p q ab AB [H1 H2] HF IH]; cbn [dot negacyclics].
    - rewrite NTT_zero by (intros; reflexivity). rewrite Z.mul_0_r. reflexivity.
    - rewrite IH, (H1 j Hj), (H2 j Hj).
      transitivity (e * e * (NTT n (psi ^ 2) (fun i => negacyclic n (at_ (fst p)) (at_ (snd p)) i * psi ^ i) j
        + NTT n (psi ^ 2) (fun i => negacyclics n ab i * psi ^ i) j)).
      + unfold n. rewrite (ntt_negacyclic k psi) by (assumption || lia). qring.
      + rewrite <- NTT_plus. match goal with |- eqQ ?a ?b => replace b with a; [reflexivity|] end. f_equal. unfold NTT. apply Sum_ext. intros. ring. }
  rewrite E. qring.
Qed.

(** The sum of products is what any correct inverse half returns. *)
Lemma accum_back (inr : Z -> Prop) (g : list Z -> res (list Z)) (R : Z -> Prop) :
  (forall x A B, zlen x = n -> (forall i, 0 <= i < n -> inr (at_ x i)) ->
    (forall j, 0 <= j < n -> eqQ (at_ x (bitrev k j)) (w * e * e *
       (NTT n (psi ^ 2) (fun i => A i * psi ^ i) j * NTT n (psi ^ 2) (fun i => B i * psi ^ i) j))) ->
    exists r, g x = Ok r /\ zlen r = n /\ (forall m, 0 <= m < n ->
       eqQ (at_ r m) (negacyclic n A B m) /\ R (at_ r m))) ->
  forall ab AB, Forall2 (fun p q => tr (fst p) (fst q) /\ tr (snd p) (snd q)) ab AB ->
  forall x, zlen x = n -> (forall i, 0 <= i < n -> inr (at_ x i)) ->
  (forall i, 0 <= i < n -> eqQ (at_ x i) (w * dot AB i)) ->
  exists r, g x = Ok r /\ zlen r = n /\ (forall m, 0 <= m < n ->
     eqQ (at_ r m) (negacyclics n ab m) /\ R (at_ r m)).
Proof.
  intros HG ab AB HF x HL HI HX.
  destruct (HG x (negacyclics n ab) delta HL HI) as (r & E & L & HR).
  - intros j Hj. rewrite HX by (apply bitrev_range; exact Hk). apply accum; assumption.
  - exists r. split; [exact E|]. split; [exact L|]. intros m Hm. destruct (HR m Hm) as [H1 H2].
    split; [|exact H2]. rewrite H1. apply negacyclic_delta, Hm.
Qed.

(** Two transforms of the same array agree modulo Q. *)
Lemma tr_agree x y z : tr x y -> tr x z -> forall i, 0 <= i < n -> eqQ (at_ y i) (at_ z i).
Proof.
  intros Hy Hz i Hi. rewrite <- (bitrev_invol k i) by (unfold n in *; lia).
  assert (R := bitrev_range k i Hk). rewrite (Hy _ R), (Hz _ R). reflexivity.
Qed.
End A.
