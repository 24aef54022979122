(** The common skeleton of the product functions. *)

From Coq Require Import ZArith List Bool Lia Setoid Morphisms.
From Verif Require Import CSem Spec Loops ModQ Conv HeapElem TransformGen Forms TableSpec
  ModelGen ModelProducts.
Import ListNotations.
Open Scope Z_scope.

(** Consecutive in-place calls on one array. *)
Fixpoint runs (fs : list (list Z -> res (list Z))) (x : list Z) : res (list Z) :=
  match fs with
  | [] => Ok x
  | f :: fs => do y <- f x; runs fs y
  end.
Fixpoint chain (p : Z) (fs : list (list Z -> res (list Z))) (h : heap)
    (K : heap -> res heap) : res heap :=
  match fs with
  | [] => K h
  | f :: fs => do h <- on p f h; chain p fs h K
  end.

Lemma chain_ok p fs : forall h r, runs fs (h p) = Ok r ->
  exists h', (forall K, chain p fs h K = K h') /\ h' p = r /\ (forall q, q <> p -> h' q = h q).
Proof.
  induction fs as [|f fs IH]; intros h r E; cbn [runs chain] in *.
  - inversion E. eauto.
  - unfold on. destruct (f (h p)) as [y|] eqn:Ef; cbn [bind] in *; [|discriminate].
    destruct (IH (hset h p y) r) as (h' & H1 & H2 & H3).
    + rewrite hset_same. exact E.
    + exists h'. split; [exact H1|]. split; [exact H2|]. intros q Hq.
      rewrite H3 by auto. apply hset_other. exact Hq.
Qed.

Definition product (F G : list (list Z -> res (list Z))) (mulh : heap -> Z -> Z -> Z -> res heap)
    (h : heap) (c a b : Z) : res heap :=
  chain a F h (fun h => chain b F h (fun h =>
    do h <- mulh h c a b; chain c G h (fun h => Ok h))).

Section Skeleton.
Variables (k psi s t : Z) (F G : list (list Z -> res (list Z)))
  (mulh : heap -> Z -> Z -> Z -> res heap) (Bin Bf Bc Bout : Z -> Prop).
Let n := 2 ^ k.
Let hat (x : Z -> Z) (j : Z) := NTT n (psi ^ 2) (fun i => x i * psi ^ i) j.
Hypothesis Hk : 0 <= k.
Hypothesis HF : forall x, zlen x = n -> (forall i, 0 <= i < n -> Bin (at_ x i)) ->
  exists r, runs F x = Ok r /\ zlen r = n /\ (forall j, 0 <= j < n ->
     eqQ (at_ r (bitrev k j)) (s * hat (at_ x) j) /\ Bf (at_ r j)).
Hypothesis HM : forall h c a b, n <= zlen (h c) -> n <= zlen (h a) -> n <= zlen (h b) ->
  (forall i, 0 <= i < n -> Bf (at_ (h a) i) /\ Bf (at_ (h b) i)) ->
  exists h', mulh h c a b = Ok h' /\ zlen (h' c) = zlen (h c)
    /\ (forall i, 0 <= i < n -> eqQ (at_ (h' c) i) (t * (at_ (h a) i * at_ (h b) i))
         /\ Bc (at_ (h' c) i))
    /\ (forall p, p <> c -> h' p = h p).
Hypothesis HG : forall x A B, zlen x = n -> (forall i, 0 <= i < n -> Bc (at_ x i)) ->
  (forall j, 0 <= j < n -> eqQ (at_ x (bitrev k j)) (t * s * s * (hat A j * hat B j))) ->
  exists r, runs G x = Ok r /\ zlen r = n /\ (forall m, 0 <= m < n ->
     eqQ (at_ r m) (negacyclic n A B m) /\ Bout (at_ r m)).

Lemma product_ok h c a b : a <> b ->
  zlen (h a) = n -> zlen (h b) = n -> zlen (h c) = n ->
  (forall i, 0 <= i < n -> Bin (at_ (h a) i)) -> (forall i, 0 <= i < n -> Bin (at_ (h b) i)) ->
  exists h', product F G mulh h c a b = Ok h' /\ zlen (h' c) = n
    /\ (forall m, 0 <= m < n ->
         eqQ (at_ (h' c) m) (negacyclic n (at_ (h a)) (at_ (h b)) m) /\ Bout (at_ (h' c) m))
    /\ (forall p, p <> a -> p <> b -> p <> c -> h' p = h p).
Proof.
  intros Hab La Lb Lc Ba Bb.
  destruct (HF (h a) La Ba) as (ra & Ea & Lra & Ra).
  destruct (HF (h b) Lb Bb) as (rb & Eb & Lrb & Rb).
  destruct (chain_ok a F h ra Ea) as (h1 & C1 & V1 & O1).
  assert (Hb1 : h1 b = h b) by (apply O1; auto).
  destruct (chain_ok b F h1 rb ltac:(rewrite Hb1; exact Eb)) as (h2 & C2 & V2 & O2).
  assert (Ha2 : h2 a = ra) by (rewrite O2 by auto; exact V1).
  assert (Lc2 : zlen (h2 c) = n).
  { destruct (Z.eq_dec c b) as [->|Hcb]; [rewrite V2; exact Lrb|].
    rewrite O2 by auto. destruct (Z.eq_dec c a) as [->|Hca]; [rewrite V1; exact Lra|].
    rewrite O1 by auto. exact Lc. }
  destruct (HM h2 c a b) as (h3 & E3 & L3 & R3 & O3).
  - lia.
  - rewrite Ha2. lia.
  - rewrite V2. lia.
  - intros i Hi. rewrite Ha2, V2. split; [apply Ra|apply Rb]; exact Hi.
  - destruct (HG (h3 c) (at_ (h a)) (at_ (h b))) as (r & E4 & L4 & R4).
    + lia.
    + intros i Hi. apply R3, Hi.
    + intros j Hj. assert (HR := bitrev_range k j Hk).
      rewrite (proj1 (R3 (bitrev k j) HR)). rewrite Ha2, V2.
      rewrite (proj1 (Ra j Hj)), (proj1 (Rb j Hj)). qring.
    + destruct (chain_ok c G h3 r E4) as (h4 & C4 & V4 & O4).
      exists h4. unfold product. rewrite C1, C2, E3. cbn [bind]. rewrite C4.
      split; [reflexivity|]. rewrite V4. split; [exact L4|]. split; [exact R4|].
      intros p H1 H2 H3. rewrite O4, O3, O2, O1 by auto. reflexivity.
Qed.
End Skeleton.

(** Tables for congruent roots. *)
Lemma omega_table_root k w w' c p : eqQ w w' -> omega_table k w c p -> omega_table k w' c p.
Proof.
  intros H [H1 H2]. split; [exact H1|]. intros l j Hl Hj. rewrite H2 by auto. now rewrite H.
Qed.
Lemma omega_table_rev_root k w w' c p : eqQ w w' -> omega_table_rev k w c p -> omega_table_rev k w' c p.
Proof.
  intros H [H1 H2]. split; [exact H1|]. intros l j Hl Hj. rewrite H2 by auto. now rewrite H.
Qed.
Lemma root_ok k w w' : eqQ w w' -> (0 < k -> eqQ (w ^ (2 ^ (k - 1))) (-1)) ->
  0 < k -> eqQ (w' ^ (2 ^ (k - 1))) (-1).
Proof. intros H H1 H2. rewrite <- H. auto. Qed.

(** [inv_omega = inv_psi^2] *)
Lemma inv_sq psi psii w wi : eqQ w (psi ^ 2) -> eqQ (psi * psii) 1 -> eqQ (w * wi) 1 ->
  eqQ wi (psii ^ 2).
Proof.
  intros Hw Hp Hwi. rewrite Hw in Hwi.
  apply (eqQ_cancel (psi ^ 2) (psii ^ 2)).
  - rewrite <- Z.pow_mul_l. rewrite (Z.mul_comm psii psi). rewrite Hp. reflexivity.
  - rewrite Hwi. rewrite <- Z.pow_mul_l. rewrite Hp. reflexivity.
Qed.

Lemma all_in_entry lo hi p n : all_in lo hi p -> zlen p = n ->
  forall i, 0 <= i < n -> lo <= at_ p i <= hi.
Proof. intros H HL i Hi. apply all_in_at; [exact H|lia]. Qed.
