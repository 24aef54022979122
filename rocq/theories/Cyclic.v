(** The plain transforms and products modulo X^n - 1. *)

From Coq Require Import ZArith List Bool Lia Setoid Morphisms.
From Verif Require Import CSem Spec Loops ModQ Conv Forms HeapElem ModelProducts ModelCyclic.
Import ListNotations.
Open Scope Z_scope.

Section C.
Variables (k psi psii : Z).
Hypothesis Hk : 0 <= k.
Hypothesis Hpsi : eqQ (psi ^ (2 ^ k)) (-1).
Hypothesis Hinv : eqQ (psi * psii) 1.
Let n := 2 ^ k.

Let Hn : 0 < n.
Proof. apply Z.pow_pos_nonneg; lia. Qed.
Let inv_e e : 0 <= e -> eqQ (psii ^ e * psi ^ e) 1.
Proof. intros He. rewrite <- Z.pow_mul_l, (Z.mul_comm psii), Hinv, Z.pow_1_l by lia. reflexivity. Qed.
Let iroot : eqQ (psii ^ n) (-1).
Proof.
  assert (H := inv_e n ltac:(lia)). unfold n in *. rewrite Hpsi in H.
  transitivity (- (psii ^ 2 ^ k * -1)); [qring|]. rewrite H. reflexivity.
Qed.

(** A product modulo X^n - 1 is a product modulo X^n + 1 of twisted arrays. *)
Lemma cyclic_twist a b m : 0 <= m < n ->
  eqQ (cyclic n a b m) (negacyclic n (fun i => a i * psii ^ i) (fun i => b i * psii ^ i) m * psi ^ m).
Proof.
  intros Hm. unfold cyclic, negacyclic. rewrite <- Sum_mul_r. apply Sum_extQ. intros i Hi.
  destruct (Z.leb_spec i m) as [L|L].
  - rewrite Z.mod_small by lia.
    transitivity (a i * b (m - i) * (psii ^ (i + (m - i)) * psi ^ m)).
    + replace (i + (m - i)) with m by lia. rewrite inv_e by lia. qring.
    + rewrite Z.pow_add_r by lia. qring.
  - replace ((m - i) mod n) with (m - i + n) by (symmetry; rewrite <- (Z_mod_plus_full (m - i) 1 n); rewrite Z.mul_1_l; apply Z.mod_small; lia).
    transitivity (- (a i * b (m - i + n) * (psii ^ (i + (m - i + n)) * psi ^ m))).
    + replace (i + (m - i + n)) with (m + n) by lia. rewrite Z.pow_add_r by lia. rewrite iroot.
      transitivity (a i * b (m - i + n) * (psii ^ m * psi ^ m)); [rewrite inv_e by lia; qring|qring].
    + rewrite Z.pow_add_r by lia. qring.
Qed.

Let untwist a j : eqQ (NTT n (psi ^ 2) (fun i => a i * psii ^ i * psi ^ i) j) (NTT n (psi ^ 2) a j).
Proof. apply NTT_extQ. intros i Hi. rewrite <- Z.mul_assoc, inv_e by lia. qring. Qed.

Lemma ntt_cyclic_eval a b j : 0 <= j ->
  eqQ (NTT n (psi ^ 2) (cyclic n a b) j) (NTT n (psi ^ 2) a j * NTT n (psi ^ 2) b j).
Proof.
  intros Hj. rewrite <- (untwist a j), <- (untwist b j).
  etransitivity; [|exact (ntt_negacyclic k psi Hk Hpsi (fun i => a i * psii ^ i) (fun i => b i * psii ^ i) j Hj)].
  apply NTT_extQ. intros i Hi. apply cyclic_twist, Hi.
Qed.

Definition fw (P : Z -> Prop) (f : list Z -> res (list Z)) : Prop :=
  forall x, zlen x = n -> (forall i, 0 <= i < n -> P (at_ x i)) ->
  exists r, f x = Ok r /\ zlen r = n /\ (forall j, 0 <= j < n ->
    eqQ (at_ r (bitrev k j)) (NTT n (psi ^ 2) (at_ x) j) /\ P (at_ r j)).
Definition bw (P : Z -> Prop) (g : list Z -> res (list Z)) : Prop :=
  forall x, zlen x = n -> (forall i, 0 <= i < n -> P (at_ x i)) ->
  exists r, g x = Ok r /\ zlen r = n /\ (forall j, 0 <= j < n ->
    eqQ (at_ r j) (NTT n (psii ^ 2) (fun i => at_ x (bitrev k i)) j) /\ P (at_ r j)).
Definition pw (P : Z -> Prop) (mul : heap -> Z -> Z -> Z -> res heap) : Prop :=
  forall h c a b, zlen (h c) = n -> zlen (h a) = n -> zlen (h b) = n ->
  (forall i, 0 <= i < n -> P (at_ (h a) i) /\ P (at_ (h b) i)) ->
  exists h', mul h c a b = Ok h' /\ zlen (h' c) = n
    /\ (forall i, 0 <= i < n -> eqQ (at_ (h' c) i) (at_ (h a) i * at_ (h b) i) /\ P (at_ (h' c) i))
    /\ (forall p, p <> c -> h' p = h p).
Definition sc (P : Z -> Prop) (s : list Z -> res (list Z)) : Prop :=
  exists u, eqQ (u * n) 1 /\
  forall x, zlen x = n -> (forall i, 0 <= i < n -> P (at_ x i)) ->
  exists r, s x = Ok r /\ zlen r = n /\ (forall i, 0 <= i < n -> eqQ (at_ r i) (at_ x i * u) /\ P (at_ r i)).

Lemma cyclic_ok P f1 f2 mul g s : fw P f1 -> fw P f2 -> pw P mul -> bw P g -> sc P s ->
  forall h c a b, a <> b -> zlen (h a) = n -> zlen (h b) = n -> zlen (h c) = n ->
  (forall i, 0 <= i < n -> P (at_ (h a) i)) -> (forall i, 0 <= i < n -> P (at_ (h b) i)) ->
  exists h', cyclic_product f1 f2 mul g s h c a b = Ok h' /\ zlen (h' c) = n
    /\ (forall i, 0 <= i < n -> eqQ (at_ (h' c) i) (cyclic n (at_ (h a)) (at_ (h b)) i) /\ P (at_ (h' c) i))
    /\ (forall p, p <> a -> p <> b -> p <> c -> h' p = h p).
Proof.
  intros F1 F2 M G [u [Hu S]] h c a b Hab La Lb Lc Pa Pb. unfold cyclic_product, on.
  destruct (F1 (h a) La Pa) as (A & EA & LA & RA). rewrite EA. cbn [bind].
  rewrite (hset_other h a A b) by congruence.
  destruct (F2 (h b) Lb Pb) as (B & EB & LB & RB). rewrite EB. cbn [bind].
  set (h2 := hset (hset h a A) b B).
  assert (Ea : h2 a = A) by (unfold h2; rewrite hset_other by congruence; apply hset_same).
  assert (Eb : h2 b = B) by (unfold h2; apply hset_same).
  assert (Lc2 : zlen (h2 c) = n).
  { destruct (Z.eq_dec c b) as [->|Nb]; [rewrite Eb; exact LB|].
    destruct (Z.eq_dec c a) as [->|Na]; [rewrite Ea; exact LA|].
    unfold h2. rewrite !hset_other by assumption. exact Lc. }
  destruct (M h2 c a b Lc2) as (h3 & E3 & L3 & R3 & O3).
  { rewrite Ea. exact LA. } { rewrite Eb. exact LB. }
  { intros i Hi. rewrite Ea, Eb. split; [apply RA, Hi|apply RB, Hi]. }
  rewrite E3. cbn [bind]. rewrite Ea, Eb in R3.
  destruct (G (h3 c) L3 (fun i Hi => proj2 (R3 i Hi))) as (D & ED & LD & RD). rewrite ED. cbn [bind].
  rewrite hset_same.
  destruct (S D LD (fun i Hi => proj2 (RD i Hi))) as (V & EV & LV & RV). rewrite EV. cbn [bind].
  eexists. split; [reflexivity|]. rewrite hset_same. split; [exact LV|]. split.
  - intros i Hi. destruct (RV i Hi) as [H1 H2]. split; [|exact H2]. rewrite H1, (proj1 (RD i Hi)).
    transitivity (NTT n (psii ^ 2) (fun j => NTT n (psi ^ 2) (cyclic n (at_ (h a)) (at_ (h b))) j) i * u).
    + apply eqQ_mul; [|reflexivity]. apply NTT_extQ. intros j Hj.
      rewrite (proj1 (R3 _ (bitrev_range k j Hk))), (proj1 (RA j Hj)), (proj1 (RB j Hj)).
      symmetry. apply ntt_cyclic_eval. lia.
    + transitivity (n * cyclic n (at_ (h a)) (at_ (h b)) i * u).
      * apply eqQ_mul; [|reflexivity]. apply (ntt_inverse k (psi ^ 2) (psii ^ 2) Hk); [apply omega_root; assumption| |exact Hi].
        rewrite <- Z.pow_mul_l, Hinv. reflexivity.
      * transitivity (cyclic n (at_ (h a)) (at_ (h b)) i * (u * n)); [qring|]. rewrite Hu. qring.
  - intros p Na Nb Nc. rewrite !hset_other by assumption. rewrite O3 by assumption.
    unfold h2. rewrite !hset_other by assumption. reflexivity.
Qed.
End C.
