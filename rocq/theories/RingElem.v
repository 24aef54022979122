(** Ring laws of the negacyclic product modulo Q. *)

From Coq Require Import ZArith List Lia Setoid Morphisms.
From Verif Require Import CSem Spec SpecRing Loops ModQ Tower Conv ModelGen ModelProducts ModelAvxProd ProdFinal AvxProdFinal.
Import ListNotations.
Open Scope Z_scope.

Lemma nega_ext n x y x' y' m : (forall i, 0 <= i < n -> eqQ (x i) (x' i)) ->
  (forall i, 0 <= i < n -> eqQ (y i) (y' i)) -> 0 <= m < n ->
  eqQ (negacyclic n x y m) (negacyclic n x' y' m).
Proof.
  intros Hx Hy Hm. unfold negacyclic. apply Sum_extQ. intros i Hi.
  destruct (Z.leb_spec i m); rewrite (Hx i), (Hy _) by lia; reflexivity.
Qed.

Section Ring.
Variables (k psi : Z).
Hypothesis Hk : 0 <= k.
Let n := 2 ^ k.
Hypothesis Hpsi : eqQ (psi ^ n) (-1).

Let psii := psi ^ (2 * n - 1).

Lemma psi_psii : eqQ (psi * psii) 1.
Proof.
  unfold psii. assert (0 < n) by (apply Z.pow_pos_nonneg; lia).
  rewrite <- Z.pow_succ_r by lia. replace (Z.succ (2 * n - 1)) with (n * 2) by lia.
  rewrite Z.pow_mul_r by lia. rewrite Hpsi. reflexivity.
Qed.

(** Scaled transform. *)
Definition Ev (x : Z -> Z) (j : Z) : Z := NTT n (psi ^ 2) (fun i => x i * psi ^ i) j.

Lemma Ev_inj x y : (forall j, 0 <= j < n -> eqQ (Ev x j) (Ev y j)) ->
  forall m, 0 <= m < n -> eqQ (x m) (y m).
Proof.
  intros H m Hm.
  assert (HI : forall z, eqQ (NTT n (psii ^ 2) (fun j => Ev z j) m) (n * (z m * psi ^ m))).
  { intros z. apply (ntt_inverse k (psi ^ 2) (psii ^ 2) Hk (omega_root k psi Hpsi)
      (omega_inv psi psii psi_psii) (fun i => z i * psi ^ i)). exact Hm. }
  assert (E : eqQ (n * (x m * psi ^ m)) (n * (y m * psi ^ m))).
  { rewrite <- !HI. apply NTT_extQ. exact H. }
  assert (C : forall z, eqQ (6145 ^ k * psii ^ m * (n * (z * psi ^ m))) z).
  { intros z. transitivity ((6145 * 2) ^ k * (psi * psii) ^ m * z).
    { rewrite !Z.pow_mul_l. unfold n. qring. }
    rewrite psi_psii. rewrite (Z.pow_1_l m) by lia.
    assert (E2 : eqQ (6145 * 2) 1) by reflexivity. rewrite E2. rewrite Z.pow_1_l by lia. qring. }
  rewrite <- (C (x m)), <- (C (y m)). rewrite E. reflexivity.
Qed.

Lemma Ev_mul x y j : 0 <= j -> eqQ (Ev (negacyclic n x y) j) (Ev x j * Ev y j).
Proof. intros Hj. apply (ntt_negacyclic k psi Hk Hpsi). exact Hj. Qed.

Lemma Ev_ext x y j : (forall i, 0 <= i < n -> eqQ (x i) (y i)) -> eqQ (Ev x j) (Ev y j).
Proof. intros H. apply NTT_extQ. intros i Hi. rewrite (H i Hi). reflexivity. Qed.

Lemma Ev_add x y j : eqQ (Ev (fun i => x i + y i) j) (Ev x j + Ev y j).
Proof.
  unfold Ev, NTT. rewrite <- Sum_add. apply Sum_extQ. intros i Hi. qring.
Qed.

Lemma nega_comm x y m : 0 <= m < n -> eqQ (negacyclic n x y m) (negacyclic n y x m).
Proof.
  revert m. apply Ev_inj. intros j Hj. rewrite !Ev_mul by lia. qring.
Qed.

Lemma nega_assoc x y z m : 0 <= m < n ->
  eqQ (negacyclic n (negacyclic n x y) z m) (negacyclic n x (negacyclic n y z) m).
Proof.
  revert m. apply Ev_inj. intros j Hj. rewrite !Ev_mul by lia. qring.
Qed.

Lemma nega_distr x y z m : 0 <= m < n ->
  eqQ (negacyclic n x (fun i => y i + z i) m) (negacyclic n x y m + negacyclic n x z m).
Proof.
  intros Hm. revert m Hm.
  apply (Ev_inj (negacyclic n x (fun i => y i + z i)) (fun m => negacyclic n x y m + negacyclic n x z m)).
  intros j Hj. rewrite Ev_add. rewrite !Ev_mul by lia. rewrite Ev_add. qring.
Qed.
End Ring.

(** No root needed here: the sum has one term. *)
Lemma nega_mono n x t m : 0 <= t < n -> 0 <= m < n ->
  eqQ (negacyclic n x (fun i => if i =? t then 1 else 0) m) (if m <? t then - x (n + m - t) else x (m - t)).
Proof.
  intros Ht Hm. unfold negacyclic.
  destruct (Z.ltb_spec m t).
  - etransitivity; [apply (Sum_single n (n + m - t)); [lia|]|cbv beta].
    { intros i Hi Hne. destruct (Z.leb_spec i m).
        - destruct (Z.eqb_spec (m - i) t); [lia|]. rewrite Z.mul_0_r. reflexivity.
        - destruct (Z.eqb_spec (m - i + n) t); [lia|]. rewrite Z.mul_0_r. reflexivity. }
    destruct (Z.leb_spec (n + m - t) m); [lia|].
    destruct (Z.eqb_spec (m - (n + m - t) + n) t); [|lia]. qring.
  - etransitivity; [apply (Sum_single n (m - t)); [lia|]|cbv beta].
    { intros i Hi Hne. destruct (Z.leb_spec i m).
        - destruct (Z.eqb_spec (m - i) t); [lia|]. rewrite Z.mul_0_r. reflexivity.
        - destruct (Z.eqb_spec (m - i + n) t); [lia|]. rewrite Z.mul_0_r. reflexivity. }
    destruct (Z.leb_spec (m - t) m); [|lia].
    destruct (Z.eqb_spec (m - (m - t)) t); [|lia]. qring.
Qed.

Lemma zlen_table n f : 0 <= n -> zlen (table n f) = n.
Proof. intros H. unfold table, zlen. rewrite map_length, seq_length. lia. Qed.

Lemma at_table n f i : 0 <= i < n -> at_ (table n f) i = f i.
Proof.
  intros H. unfold table, at_.
  rewrite (nth_indep _ 0 (f (Z.of_nat 0))) by (rewrite map_length, seq_length; lia).
  rewrite (map_nth (fun i => f (Z.of_nat i)) _ O). rewrite seq_nth by lia. f_equal. lia.
Qed.

Lemma table_in n f lo hi : (forall i, 0 <= i < n -> lo <= f i <= hi) -> all_in lo hi (table n f).
Proof.
  intros H v Hv. unfold table in Hv. apply in_map_iff in Hv. destruct Hv as (i & <- & Hi).
  apply in_seq in Hi. apply H. lia.
Qed.

(** What a procedure leaves. *)
Definition prodQ (n : Z) (x y : list Z) : list Z := table n (fun i => negacyclic n (at_ x) (at_ y) i mod Q).

Lemma prodQ_poly n x y : 0 <= n -> poly n (prodQ n x y).
Proof.
  intros H. split; [apply zlen_table; exact H|]. apply table_in. intros i Hi.
  assert (B := Z.mod_pos_bound (negacyclic n (at_ x) (at_ y) i) Q ltac:(reflexivity)). lia.
Qed.

Lemma addQ_poly n x y : 0 <= n -> poly n (addQ n x y).
Proof.
  intros H. split; [apply zlen_table; exact H|]. apply table_in. intros i Hi.
  assert (B := Z.mod_pos_bound (at_ x i + at_ y i) Q ltac:(reflexivity)). lia.
Qed.

Section Procs.
Variables (malloc : Z -> list Z) (size psi : Z) (T : tables) (R : red_tables) (sh : bool).
Hypothesis HM : forall n, 0 <= n -> zlen (malloc n) = n.
Hypothesis ET : make_tables malloc size psi = Ok (Written T).
Hypothesis ER : make_red_tables malloc size psi = Ok (Written R).
Hypothesis Hsz : size <= 1024.

Lemma proc_leaves f x y : product_procedure size psi T R sh f -> poly size x -> poly size y ->
  leaves f x y (prodQ size x y).
Proof.
  intros Hf [Lx Ix] [Ly Iy] h c a b Hab Ha Hb Hc. subst x y.
  rewrite Lx in Hc.
  assert (HE : exists h', f h c a b = Ok h' /\ zlen (h' c) = size /\ all_in 0 (Q - 1) (h' c)
    /\ (forall i, 0 <= i < size -> at_ (h' c) i = negacyclic size (at_ (h a)) (at_ (h b)) i mod Q)
    /\ (forall p, p <> a -> p <> b -> p <> c -> h' p = h p)).
  { destruct Hf as [Hf|[Hf|[[H16 Hf]|(H1 & H2 & Hf)]]].
    - exact (ntt_products_correct_L _ _ _ _ HM ET f Hf h c a b Hab Lx Ly Hc Ix Iy).
    - exact (red_products_correct_L _ _ _ _ sh HM ER Hsz f Hf h c a b Hab Lx Ly Hc Ix Iy).
    - exact (asm_products_correct_L _ _ _ _ sh HM ER (conj H16 Hsz) f Hf h c a b Hab Lx Ly Hc Ix Iy).
    - rewrite Hf. rewrite H1 in *. rewrite H2 in *.
      exact (asm1024_product1_correct_L _ _ HM ER h c a b Hab Lx Ly Hc Ix Iy). }
  destruct HE as (h' & E & L & _ & V & _). exists h'. split; [exact E|].
  assert (0 <= size) by (rewrite <- L; unfold zlen; lia).
  apply (list_ext _ _ size L (zlen_table _ _ H)). intros i Hi. rewrite (V i Hi). unfold prodQ.
  rewrite at_table by exact Hi. reflexivity.
Qed.

Lemma size_root : exists k, 0 <= k /\ size = 2 ^ k /\ eqQ (psi ^ (2 ^ k)) (-1).
Proof using HM ET. clear R ER Hsz.
  destruct (gen_tables _ _ _ _ HM ET) as (k & Hk & Hs & Hr & _). exists k. split; [lia|]. auto.
Qed.

Lemma size_nonneg : 0 <= size.
Proof using HM ET. clear R ER Hsz. destruct size_root as (k & Hk & -> & _). apply Z.pow_nonneg. lia. Qed.

Lemma at_prodQ x y i : 0 <= i < size -> eqQ (at_ (prodQ size x y) i) (negacyclic size (at_ x) (at_ y) i).
Proof using.
  intros Hi. unfold prodQ. rewrite at_table by exact Hi. unfold eqQ. apply Z.mod_mod. discriminate.
Qed.

Lemma prodQ_eq x y x' y' :
  (forall i, 0 <= i < size -> eqQ (negacyclic size (at_ x) (at_ y) i) (negacyclic size (at_ x') (at_ y') i)) ->
  prodQ size x y = prodQ size x' y'.
Proof using HM ET. clear R ER Hsz.
  intros H. assert (Hn := size_nonneg).
  apply (list_ext _ _ size (zlen_table _ _ Hn) (zlen_table _ _ Hn)).
  intros i Hi. unfold prodQ. rewrite !at_table by exact Hi. exact (H i Hi).
Qed.

Lemma prodQ_comm x y : prodQ size x y = prodQ size y x.
Proof using HM ET. clear R ER Hsz.
  destruct size_root as (k & Hk & Hs & Hr). apply prodQ_eq. rewrite Hs. intros i Hi.
  apply (nega_comm k psi Hk Hr). exact Hi.
Qed.

Lemma prodQ_assoc x y z : prodQ size (prodQ size x y) z = prodQ size x (prodQ size y z).
Proof using HM ET. clear R ER Hsz.
  apply prodQ_eq. intros i Hi.
  assert (H := fun u v => at_prodQ u v). destruct size_root as (k & Hk & Hs & Hr).
  rewrite Hs in *.
  transitivity (negacyclic (2 ^ k) (negacyclic (2 ^ k) (at_ x) (at_ y)) (at_ z) i).
  { refine (nega_ext (2 ^ k) _ _ _ _ i _ _ Hi); [apply H|reflexivity]. }
  transitivity (negacyclic (2 ^ k) (at_ x) (negacyclic (2 ^ k) (at_ y) (at_ z)) i).
  { apply (nega_assoc k psi Hk Hr). exact Hi. }
  symmetry. refine (nega_ext (2 ^ k) _ _ _ _ i _ _ Hi); [reflexivity|apply H].
Qed.

Lemma prodQ_distr x y z : prodQ size x (addQ size y z) = addQ size (prodQ size x y) (prodQ size x z).
Proof using HM ET. clear R ER Hsz.
  assert (Hn := size_nonneg).
  apply (list_ext _ _ size (zlen_table _ _ Hn) (zlen_table _ _ Hn)).
  intros i Hi. rewrite !at_table by exact Hi.
  change (eqQ (negacyclic size (at_ x) (at_ (addQ size y z)) i) (at_ (prodQ size x y) i + at_ (prodQ size x z) i)).
  rewrite !at_prodQ by exact Hi.
  assert (HA : forall j, 0 <= j < size -> eqQ (at_ (addQ size y z) j) (at_ y j + at_ z j)).
  { intros j Hj. unfold addQ. rewrite at_table by exact Hj. apply Z.mod_mod. discriminate. }
  destruct size_root as (k & Hk & Hs & Hr). rewrite Hs in *.
  transitivity (negacyclic (2 ^ k) (at_ x) (fun j => at_ y j + at_ z j) i).
  { refine (nega_ext (2 ^ k) _ _ _ _ i _ _ Hi); [reflexivity|exact HA]. }
  apply (nega_distr k psi Hk Hr). exact Hi.
Qed.

Lemma prodQ_mono x t : poly size x -> 0 <= t < size -> prodQ size x (monomial size t) = rotate size t x.
Proof using HM ET. clear R ER Hsz.
  intros [Lx Ix] Ht. assert (Hn := size_nonneg).
  apply (list_ext _ _ size (zlen_table _ _ Hn) (zlen_table _ _ Hn)).
  intros i Hi. unfold prodQ, rotate. rewrite !at_table by exact Hi.
  assert (HE : eqQ (negacyclic size (at_ x) (at_ (monomial size t)) i)
                   (if i <? t then - at_ x (size + i - t) else at_ x (i - t))).
  { rewrite <- (nega_mono size (at_ x) t i Ht Hi). unfold negacyclic. apply Sum_extQ. intros j Hj.
    unfold monomial. destruct (Z.leb_spec j i); rewrite at_table by lia; reflexivity. }
  rewrite HE. destruct (Z.ltb_spec i t); [reflexivity|].
  apply Z.mod_small. assert (HH := all_in_at _ _ _ (i - t) Ix ltac:(lia)). unfold Q in *. lia.
Qed.

Lemma rotate_0 x : poly size x -> rotate size 0 x = x.
Proof using HM ET. clear R ER Hsz.
  intros [Lx Ix]. assert (Hn := size_nonneg).
  apply (list_ext _ _ size (zlen_table _ _ Hn) Lx). intros i Hi. unfold rotate. rewrite at_table by exact Hi.
  destruct (Z.ltb_spec i 0); [lia|]. f_equal. lia.
Qed.
End Procs.
