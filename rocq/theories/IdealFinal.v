(** Lemmas behind [PropIdeal]. *)

From Coq Require Import ZArith List Bool Lia Setoid Morphisms.
From Verif Require Import CSem Spec Loops ModQ Exlib Forms TableSpec ModelGen ModelProducts ExTables
  GenMain GenFinal ProdGen NttElem RedElem RedTransforms ProdRed ProdFinal Conv IdealRed IdealProd.
Import ListNotations.
Open Scope Z_scope.

Lemma red_transforms_never_wrong_L :
  forall malloc size psi T, (forall n, 0 <= n -> zlen (malloc n) = n) ->
  make_red_tables malloc size psi = Ok (Written T) ->
  exists k, 1 <= k <= 11 /\ size = 2 ^ k /\
  forall f g, In (f, g)
    [(r_ct_rev2std size T, fun a j => NTT size (psi ^ 2) (fun i => a (bitrev k i)) j);
     (r_gs_rev2std size T, fun a j => NTT size (psi ^ 2) (fun i => a (bitrev k i)) j);
     (r_ct_std2rev size T, fun a j => NTT size (psi ^ 2) a (bitrev k j));
     (r_gs_std2rev size T, fun a j => NTT size (psi ^ 2) a (bitrev k j));
     (r_intt_ct_rev2std size T, fun a j => NTT size (r_inv_psi T ^ 2) (fun i => a (bitrev k i)) j);
     (r_intt_gs_rev2std size T, fun a j => NTT size (r_inv_psi T ^ 2) (fun i => a (bitrev k i)) j);
     (r_intt_ct_std2rev size T, fun a j => NTT size (r_inv_psi T ^ 2) a (bitrev k j));
     (r_intt_gs_std2rev size T, fun a j => NTT size (r_inv_psi T ^ 2) a (bitrev k j));
     (r_mulntt_ct_rev2std size T, fun a j => NTT size (psi ^ 2) (fun i => a (bitrev k i) * psi ^ i) j);
     (r_mulntt_ct_std2rev size T, fun a j => NTT size (psi ^ 2) (fun i => a i * psi ^ i) (bitrev k j));
     (r_inttmul_gs_rev2std size T, fun a j => r_inv_psi T ^ j * NTT size (r_inv_psi T ^ 2) (fun i => a (bitrev k i)) j);
     (r_inttmul_gs_std2rev size T, fun a j =>
        r_inv_psi T ^ (bitrev k j) * NTT size (r_inv_psi T ^ 2) a (bitrev k j))] ->
  forall a, zlen a = size ->
  (exists r, f a = Ok r /\ zlen r = size /\ forall j, 0 <= j < size -> at_ r j mod Q = g (at_ a) j mod Q)
  \/ f a = Err SignedOverflow \/ f a = Err AssertFail.
Proof.
  intros malloc size psi T HM E.
  destruct (gen_red_tables _ _ _ _ HM E) as (k & Hk & -> & Hr & HT).
  exists k. split; [exact Hk|]. split; [reflexivity|].
  assert (Hk31 : 0 <= k <= 31) by lia.
  assert (Hw : eqQ (r_omega T) (psi ^ 2)) by apply HT.
  assert (Hinv : eqQ (psi * r_inv_psi T) 1) by apply HT.
  assert (Hwi : eqQ (r_inv_omega T) (r_inv_psi T ^ 2)).
  { eapply inv_sq; [exact Hw|exact Hinv|apply HT]. }
  assert (root := omega_root k psi Hr).
  assert (iroot_n : eqQ (r_inv_psi T ^ (2 ^ k)) (-1)) by (eapply psi_inv_root; eauto; lia).
  assert (iroot := omega_root k (r_inv_psi T) iroot_n).
  destruct (rok_omega_powers _ _ _ HT) as [A1 _]. apply (omega_table_root _ _ _ _ _ Hw) in A1.
  destruct (rok_omega_powers_rev _ _ _ HT) as [A2 _]. apply (omega_table_rev_root _ _ _ _ _ Hw) in A2.
  destruct (rok_inv_omega_powers _ _ _ HT) as [A3 _]. apply (omega_table_root _ _ _ _ _ Hwi) in A3.
  destruct (rok_inv_omega_powers_rev _ _ _ HT) as [A4 _]. apply (omega_table_rev_root _ _ _ _ _ Hwi) in A4.
  destruct (rok_mixed _ _ _ HT) as [A5 _]. destruct (rok_mixed_rev _ _ _ HT) as [A6 _].
  destruct (rok_inv_mixed _ _ _ HT) as [A7 _]. destruct (rok_inv_mixed_rev _ _ _ HT) as [A8 _].
  assert (std : forall m (g : Z -> Z), or_stops m (2 ^ k) (fun r => forall j, 0 <= j < 2 ^ k -> eqQ (at_ r j) (g j)) ->
    (exists r, m = Ok r /\ zlen r = 2 ^ k /\ forall j, 0 <= j < 2 ^ k -> at_ r j mod Q = g j mod Q)
    \/ m = Err SignedOverflow \/ m = Err AssertFail) by (intros m g H; exact H).
  assert (rev : forall m (g : Z -> Z), or_stops m (2 ^ k) (fun r => forall j, 0 <= j < 2 ^ k -> eqQ (at_ r (bitrev k j)) (g j)) ->
    (exists r, m = Ok r /\ zlen r = 2 ^ k /\ forall j, 0 <= j < 2 ^ k -> at_ r j mod Q = g (bitrev k j) mod Q)
    \/ m = Err SignedOverflow \/ m = Err AssertFail).
  { intros m g [(r & E1 & L & R)|H]; [left|right; exact H]. exists r. split; [exact E1|]. split; [exact L|].
    intros j Hj. assert (X := R (bitrev k j) (bitrev_range k j ltac:(lia))).
    rewrite bitrev_invol in X by lia. exact X. }
  intros f g HI a La. cbn [In] in HI.
  repeat (destruct HI as [HI|HI]; [injection HI as <- <-|]); [..|destruct HI].
  - apply std. exact (ct_rev2std_any k _ a _ Hk31 root A1 La).
  - apply std. exact (gs_rev2std_any k _ a _ Hk31 root A2 La).
  - apply (rev _ (fun j => NTT (2 ^ k) (psi ^ 2) (at_ a) j)). exact (ct_std2rev_any k _ a _ Hk31 root A2 La).
  - apply (rev _ (fun j => NTT (2 ^ k) (psi ^ 2) (at_ a) j)). exact (gs_std2rev_any k _ a _ Hk31 root A1 La).
  - apply std. exact (ct_rev2std_any k _ a _ Hk31 iroot A3 La).
  - apply std. exact (gs_rev2std_any k _ a _ Hk31 iroot A4 La).
  - apply (rev _ (fun j => NTT (2 ^ k) (r_inv_psi T ^ 2) (at_ a) j)). exact (ct_std2rev_any k _ a _ Hk31 iroot A4 La).
  - apply (rev _ (fun j => NTT (2 ^ k) (r_inv_psi T ^ 2) (at_ a) j)). exact (gs_std2rev_any k _ a _ Hk31 iroot A3 La).
  - apply std. exact (mul_ct_rev2std_any k _ a _ Hk31 Hr A5 La).
  - apply (rev _ (fun j => NTT (2 ^ k) (psi ^ 2) (fun i => at_ a i * psi ^ i) j)).
    exact (mul_ct_std2rev_any k _ a _ Hk31 Hr A6 La).
  - apply std. exact (gs_mul_rev2std_any k _ a _ Hk31 iroot_n A8 La).
  - apply (rev _ (fun j => r_inv_psi T ^ j * NTT (2 ^ k) (r_inv_psi T ^ 2) (at_ a) j)).
    exact (gs_mul_std2rev_any k _ a _ Hk31 iroot_n A7 La).
Qed.

Lemma red_products_never_wrong_L :
  forall malloc size psi T sh, (forall n, 0 <= n -> zlen (malloc n) = n) ->
  make_red_tables malloc size psi = Ok (Written T) -> size <= 1024 ->
  forall f, In f [red_product1 sh size T; red_product2 sh size T; red_product3 sh size T; red_product4 sh size T; red_product5 sh size T] ->
  forall h c a b, a <> b -> zlen (h a) = size -> zlen (h b) = size -> zlen (h c) = size ->
  all_in (- 2 ^ 31) (2 ^ 31 - 1) (h a) -> all_in (- 2 ^ 31) (2 ^ 31 - 1) (h b) ->
  (exists h', f h c a b = Ok h' /\ zlen (h' c) = size /\ all_in 0 (Q - 1) (h' c)
    /\ (forall i, 0 <= i < size ->
          at_ (h' c) i = negacyclic size (at_ (h a)) (at_ (h b)) i mod Q)
    /\ (forall p, p <> a -> p <> b -> p <> c -> h' p = h p))
  \/ f h c a b = Err SignedOverflow \/ f h c a b = Err AssertFail.
Proof.
  intros malloc size psi T sh HM E Hsz f HI h c a b Hab La Lb Lc Ia Ib.
  destruct (gen_red_tables _ _ _ _ HM E) as (k & Hk & -> & Hr & HT).
  assert (Hk10 : 1 <= k <= 10).
  { destruct (Z.leb_spec k 10); [lia|]. assert (2 ^ 11 <= 2 ^ k) by (apply Z.pow_le_mono_r; lia).
    change (2 ^ 11) with 2048 in *. lia. }
  change (- 2 ^ 31) with (-2147483648) in *. change (2 ^ 31 - 1) with 2147483647 in *.
  assert (Ga : good k (h a)) by (split; [exact La|intros i Hi; exact (all_in_at _ _ _ i Ia Hi)]).
  assert (Gb : good k (h b)) by (split; [exact Lb|intros i Hi; exact (all_in_at _ _ _ i Ib Hi)]).
  assert (X : forall F f, product_any k F f -> (exists h', f h c a b = Ok h' /\ zlen (h' c) = 2 ^ k /\ all_in 0 (Q - 1) (h' c)
    /\ (forall i, 0 <= i < 2 ^ k -> at_ (h' c) i = negacyclic (2 ^ k) (at_ (h a)) (at_ (h b)) i mod Q)
    /\ (forall p, p <> a -> p <> b -> p <> c -> h' p = h p))
    \/ f h c a b = Err SignedOverflow \/ f h c a b = Err AssertFail).
  { intros F0 f0 H. destruct (H h c a b Hab Lc Ga Gb) as [(h' & E1 & L1 & R1 & _ & _ & O1)|H1]; [left|right; exact H1].
    apply prod_canonical. exists h'. auto. }
  five HI.
  - exact (X _ _ (product1_any sh k psi T Hk10 Hr HT)).
  - exact (X _ _ (product2_any sh k psi T Hk10 Hr HT)).
  - exact (X _ _ (product3_any sh k psi T Hk10 Hr HT)).
  - exact (X _ _ (product4_any sh k psi T Hk10 Hr HT)).
  - exact (X _ _ (product5_any sh k psi T Hk10 Hr HT)).
Qed.

(** ** Examples: entries far beyond the documented range *)
Definition ex_big : list Z := [2000000; -1500000; 3; 70000000; 0; 0; 0; 0; 0; 0; 0; 0; 0; 0; 0; -123456].
Definition ex_big_heap : heap := fun p => if p =? 1 then ex_big else exB.
Definition ex_big_prod : list Z := [5194; 545; 8479; 11547; 3; 1856; 0; 0; 11723; 3107; 742; 12286; 10433; 0; 3962; 2829].
Definition ex_huge_heap : heap := fun p => repeat 2147483647 16.
