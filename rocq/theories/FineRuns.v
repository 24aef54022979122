(** The Longa-Naehrig products of size 1024 with psi = 1014: entries between -300000 and
    300000 stay in that range, so that a product can be called again on the arrays it has
    overwritten. *)

From Coq Require Import ZArith List Bool Lia Setoid Morphisms.
From Verif Require Import CSem Spec Loops ModQ Conv HeapElem TransformGen Forms TableSpec ModelGen ModelProducts
  ModelRed ProdGen NttElem RedElem RedBfly RedTransforms ProdRed IdealProd FineBounds FineGen.
Import ListNotations.
Open Scope Z_scope.

(** ** The rows of the tables *)

(** [x, x*w, x*w^2, ...] *)
Fixpoint pows (n : nat) (x w : Z) : list Z :=
  match n with O => [] | S n => x :: pows n (ctr (x * w)) w end.
Definition squares (m : nat) (x : Z) : Z := Nat.iter m (fun x => ctr (x * x)) (ctr x).

Lemma pows_len n : forall x w, zlen (pows n x w) = Z.of_nat n.
Proof. unfold zlen. induction n as [|n IH]; intros x w; [reflexivity|]. cbn [pows length]. specialize (IH (ctr (x * w)) w). lia. Qed.
Lemma pows_rng n : forall x w i, -6144 <= x <= 6144 -> 0 <= i < Z.of_nat n -> -6144 <= at_ (pows n x w) i <= 6144.
Proof.
  induction n as [|n IH]; intros x w i Hx Hi; [lia|]. cbn [pows].
  destruct (Z.eq_dec i 0) as [->|N]; [exact Hx|]. rewrite at_cons by lia. apply IH; [apply ctr_rng|lia].
Qed.
Lemma pows_ok n : forall x w i, 0 <= i < Z.of_nat n -> eqQ (at_ (pows n x w) i) (x * w ^ i).
Proof.
  induction n as [|n IH]; intros x w i Hi; [lia|]. cbn [pows].
  destruct (Z.eq_dec i 0) as [->|N]; [rewrite at_head; qring|]. rewrite at_cons by lia. rewrite IH by lia.
  rewrite ctr_eq. replace i with (Z.succ (i - 1)) at 2 by lia. rewrite Z.pow_succ_r by lia. qring.
Qed.
Lemma squares_ok m x : eqQ (squares m x) (x ^ (2 ^ Z.of_nat m)).
Proof.
  unfold squares. induction m as [|m IH].
  - cbn [Nat.iter nat_rect]. rewrite ctr_eq. change (2 ^ Z.of_nat 0) with 1. rewrite Z.pow_1_r. reflexivity.
  - cbn [Nat.iter nat_rect]. change (nat_rect _ _ _ m) with (Nat.iter m (fun x => ctr (x * x)) (ctr x)).
    rewrite ctr_eq, IH. rewrite Nat2Z.inj_succ, Z.pow_succ_r by lia.
    rewrite (Z.mul_comm 2), (Z.pow_mul_r _ _ 2) by lia. rewrite (Z.pow_2_r (_ ^ _)). reflexivity.
Qed.

(** Row [m] of red_omega_powers and of red_mixed_powers_rev *)
Definition row_std (m : nat) : list Z := pows (2 ^ m) (-4096) (squares (9 - m) (1014 ^ 2)).
Definition row_mix (m : nat) : list Z := map (fun x => ctr (x * squares (9 - m) 1014)) (row m).

Lemma pow2_nat m : Z.of_nat (2 ^ m) = 2 ^ Z.of_nat m.
Proof. rewrite Nat2Z.inj_pow. reflexivity. Qed.
Lemma row_std_len m : zlen (row_std m) = 2 ^ Z.of_nat m.
Proof. unfold row_std. rewrite pows_len. apply pow2_nat. Qed.
Lemma row_std_rng m i : 0 <= i < 2 ^ Z.of_nat m -> -6144 <= at_ (row_std m) i <= 6144.
Proof. intros Hi. apply pows_rng; [lia|]. rewrite pow2_nat. exact Hi. Qed.
Lemma row_std_unit m : at_ (row_std m) 0 = -4096.
Proof.
  unfold row_std. destruct (2 ^ m)%nat eqn:E; [|reflexivity].
  exfalso. apply (Nat.pow_nonzero 2 m); [discriminate|exact E].
Qed.
Lemma row_mix_len m : zlen (row_mix m) = 2 ^ Z.of_nat m.
Proof. unfold row_mix, zlen. rewrite map_length. apply row_len. Qed.
Lemma row_mix_rng m i : 0 <= i < 2 ^ Z.of_nat m -> -6144 <= at_ (row_mix m) i <= 6144.
Proof. intros Hi. unfold row_mix. rewrite at_map by (rewrite row_len; exact Hi). apply ctr_rng. Qed.

Lemma row_std_entry p l j : omega_table 10 (1014 ^ 2) 8193 p ->
  (forall i, 1 <= i < 1024 -> -6144 <= at_ p i <= 6144) ->
  0 <= l < 10 -> 0 <= j < 2 ^ l -> at_ p (2 ^ l + j) = at_ (row_std (Z.to_nat l)) j.
Proof.
  intros HT HR Hl Hj.
  assert (N : 2 ^ l <= 2 ^ 9) by (apply Z.pow_le_mono_r; lia). change (2 ^ 9) with 512 in N.
  assert (P0 : 0 < 2 ^ l) by (apply Z.pow_pos_nonneg; lia).
  assert (J : 0 <= j < 2 ^ Z.of_nat (Z.to_nat l)) by (rewrite Z2Nat.id by lia; exact Hj).
  apply ctr_unique; [|apply HR; lia|apply row_std_rng, J].
  rewrite (omega_table_z 10 (1014 ^ 2) 8193 p HT) by lia.
  unfold row_std. rewrite pows_ok by (rewrite pow2_nat; exact J). unfold zw.
  replace (10 - (l + 1)) with (9 - l) by lia.
  assert (E : eqQ (squares (9 - Z.to_nat l) (1014 ^ 2)) ((1014 ^ 2) ^ (2 ^ (9 - l)))).
  { rewrite squares_ok. replace (Z.of_nat (9 - Z.to_nat l)) with (9 - l) by lia. reflexivity. }
  apply eqQ_mul; [reflexivity|]. rewrite Z.pow_mul_r by (try apply Z.pow_nonneg; lia).
  rewrite E. reflexivity.
Qed.
Lemma row_mix_entry p l j : mixed_table_rev 10 1014 8193 p ->
  (forall i, 1 <= i < 1024 -> -6144 <= at_ p i <= 6144) ->
  0 <= l < 10 -> 0 <= j < 2 ^ l -> at_ p (2 ^ l + j) = at_ (row_mix (Z.to_nat l)) j.
Proof.
  intros HT HR Hl Hj.
  assert (N : 2 ^ l <= 2 ^ 9) by (apply Z.pow_le_mono_r; lia). change (2 ^ 9) with 512 in N.
  assert (P0 : 0 < 2 ^ l) by (apply Z.pow_pos_nonneg; lia).
  assert (J : 0 <= j < 2 ^ Z.of_nat (Z.to_nat l)) by (rewrite Z2Nat.id by lia; exact Hj).
  apply ctr_unique; [|apply HR; lia|apply row_mix_rng, J].
  rewrite (mixed_table_rev_z 10 1014 8193 p HT) by lia.
  unfold row_mix. rewrite at_map by (rewrite row_len; exact J). rewrite ctr_eq, squares_ok.
  assert (L9 : (Z.to_nat l <= 9)%nat) by lia. rewrite (row_ok _ _ L9 J). rewrite Z2Nat.id by lia.
  replace (Z.of_nat (9 - Z.to_nat l)) with (9 - l) by lia. unfold zp.
  assert (R := bitrev_range l j ltac:(lia)).
  replace (10 - (l + 1)) with (9 - l) by lia.
  rewrite <- (Z.pow_mul_r 1014 2) by (try apply Z.mul_nonneg_nonneg; try apply Z.pow_nonneg; lia).
  rewrite <- Z.mul_assoc. rewrite <- Z.pow_add_r by (try apply Z.mul_nonneg_nonneg; try apply Z.mul_nonneg_nonneg; try apply Z.pow_nonneg; lia).
  match goal with |- eqQ (_ * _ ^ ?x) (_ * _ ^ ?y) => replace y with x by ring end. reflexivity.
Qed.

(** ** The forward parts *)
Definition near (v : Z) : Prop := within 300000 v.

Lemma check_ct : ccheck row 1000000000 10 0 [462286] = true.
Proof. vm_compute. reflexivity. Qed.
Lemma check_gs : gcheck row_std 1000000000 10 0 (repeat 462286 1024) = true.
Proof. vm_compute. reflexivity. Qed.
Lemma check_mix : ccheck row_mix 1000000000 10 0 [300000] = true.
Proof. vm_compute. reflexivity. Qed.

Lemma redz_near v : Z.abs v <= 1000000000 -> near (redz v).
Proof.
  intros H. assert (X := redz_bounds (-1000000000) 1000000000 v ltac:(lia)). unfold near, within.
  change (1000000000 / 4096) with 244140 in X. change (-1000000000 / 4096) with (-244141) in X. lia.
Qed.
Lemma redz_psi x w : near x -> -6144 <= w <= 6144 -> Z.abs (redz (x * w)) <= 462286.
Proof.
  intros Hx Hw. assert (H := redz_grow x w 300000 Hx Hw). unfold grow in H.
  assert (300000 * Z.abs w / 4096 <= 450000).
  { apply Z.div_le_upper_bound; lia. }
  destruct (w =? -4096); lia.
Qed.

Lemma prod_abs300 x y : Z.abs x <= 300000 -> Z.abs y <= 300000 -> - 90000000000 <= x * y <= 90000000000.
Proof. intros Hx Hy. exact (prod_abs 300000 300000 x y ltac:(lia) ltac:(lia)). Qed.

Section P.
Variable T : red_tables.
Hypothesis Hpsi : eqQ (1014 ^ (2 ^ 10)) (-1).
Hypothesis HT : red_tables_ok 10 1014 T.
Let Hk : 1 <= 10 <= 10.
Proof. lia. Qed.
Let n := 2 ^ 10.
Let Hn : n = 1024.
Proof. reflexivity. Qed.
Let Hw : eqQ (r_omega T) (1014 ^ 2).
Proof. apply HT. Qed.

(** The forward part returns, with entries in the range. *)
Definition stays (F : list (list Z -> res (list Z))) : Prop :=
  forall x, zlen x = n -> (forall i, 0 <= i < n -> near (at_ x i)) ->
  exists r, runs F x = Ok r /\ zlen r = n /\ forall i, 0 <= i < n -> near (at_ r i).

Definition settles (M : Z) (f : list Z -> res (list Z)) : Prop :=
  forall x, zlen x = 1024 -> (forall i, 0 <= i < 1024 -> Z.abs (at_ x i) <= M) ->
  exists r, f x = Ok r /\ zlen r = 1024 /\ forall i, 0 <= i < 1024 -> Z.abs (at_ r i) <= 1000000000.

Lemma reduce_near x : zlen x = 1024 -> (forall i, 0 <= i < 1024 -> Z.abs (at_ x i) <= 1000000000) ->
  exists r, reduce_array x n = Ok r /\ zlen r = n /\ forall i, 0 <= i < n -> near (at_ r i).
Proof.
  intros L H. rewrite Hn. destruct (reduce_array_spec x 1024) as (r & E & Lr & R & _); [lia|lia| |].
  - intros i Hi. specialize (H i Hi). lia.
  - exists r. split; [exact E|]. split; [lia|]. intros i Hi. rewrite R by exact Hi. apply redz_near, H, Hi.
Qed.

Lemma stays_plain f : settles 462286 f ->
  stays [maybe_shift false n; (fun x => mul_reduce_array16 x n (red_psi_powers T)); f; (fun x => reduce_array x n)].
Proof.
  intros Hf x L Hx. cbn [runs maybe_shift bind].
  destruct (rok_psi_powers _ _ _ HT) as [[Lp _] Hp].
  assert (W : forall i, 0 <= i < n -> -6144 <= at_ (red_psi_powers T) i <= 6144).
  { intros i Hi. apply all_in_at; [exact Hp|]. rewrite Lp. exact Hi. }
  destruct (mul_reduce_array16_spec x n (red_psi_powers T)) as (x1 & -> & L1 & R1 & _).
  - rewrite Hn. lia.
  - lia.
  - rewrite Lp. apply Z.le_refl.
  - intros i Hi. unfold mulrange. specialize (Hx i Hi). specialize (W i Hi). unfold near, within in Hx.
    assert (X : Z.abs (at_ x i * at_ (red_psi_powers T) i) <= 300000 * 6144).
    { rewrite Z.abs_mul. apply Z.mul_le_mono_nonneg; lia. } lia.
  - cbn [bind]. destruct (Hf x1) as (x2 & -> & L2 & R2).
    + lia.
    + intros i Hi. rewrite R1 by exact Hi. apply redz_psi; [apply Hx, Hi|apply W, Hi].
    + cbn [bind]. destruct (reduce_near x2 L2 R2) as (x3 & -> & L3 & R3). cbn [bind]. eauto.
Qed.
Lemma stays_mixed f : settles 300000 f -> stays [maybe_shift false n; f; (fun x => reduce_array x n)].
Proof.
  intros Hf x L Hx. cbn [runs maybe_shift bind]. destruct (Hf x L Hx) as (x2 & -> & L2 & R2).
  cbn [bind]. destruct (reduce_near x2 L2 R2) as (x3 & -> & L3 & R3). cbn [bind]. eauto.
Qed.

Let in1 p : zlen p = 2 ^ 10 -> all_in (-6144) 6144 p -> forall i, 1 <= i < 1024 -> -6144 <= at_ p i <= 6144.
Proof. intros L H i Hi. apply all_in_at; [exact H|]. rewrite L. change (2 ^ 10) with 1024. lia. Qed.

Lemma stays_ct : stays (fwd_ct false 10 T).
Proof.
  apply stays_plain. intros x L Hx. destruct (rok_omega_powers_rev _ _ _ HT) as [H1 H2].
  apply (omega_table_rev_root _ _ _ _ _ Hw) in H1.
  apply (ct_fine row 462286 1000000000 row_len row_rng check_ct ltac:(lia)); auto.
  - apply row_unit.
  - apply H1.
  - intros l j Hl Hj. apply row_entry; auto. apply in1; [apply H1|exact H2].
Qed.
Lemma stays_gs : stays (fwd_gs false 10 T).
Proof.
  apply stays_plain. intros x L Hx. destruct (rok_omega_powers _ _ _ HT) as [H1 H2].
  apply (omega_table_root _ _ _ _ _ Hw) in H1.
  apply (gs_fine row_std 462286 1000000000 row_std_len row_std_rng check_gs ltac:(lia)); auto.
  - apply H1.
  - apply row_std_unit.
  - intros l j Hl Hj. apply row_std_entry; auto. apply in1; [apply H1|exact H2].
Qed.
Lemma stays_mul : stays (fwd_mul false 10 T).
Proof.
  apply stays_mixed. intros x L Hx. destruct (rok_mixed_rev _ _ _ HT) as [H1 H2].
  apply (mulct_fine row_mix 300000 1000000000 row_mix_len row_mix_rng check_mix ltac:(lia)); auto.
  - apply H1.
  - intros l j Hl Hj. apply row_mix_entry; auto. apply in1; [apply H1|exact H2].
Qed.

(** ** The products *)
Definition repeatable (f : heap -> Z -> Z -> Z -> res heap) : Prop :=
  forall h c a b, a <> b -> a <> c -> b <> c -> zlen (h a) = n -> zlen (h b) = n -> zlen (h c) = n ->
  (forall i, 0 <= i < n -> near (at_ (h a) i)) -> (forall i, 0 <= i < n -> near (at_ (h b) i)) ->
  exists h', f h c a b = Ok h' /\ zlen (h' c) = n
    /\ (forall m, 0 <= m < n ->
         eqQ (at_ (h' c) m) (negacyclic n (at_ (h a)) (at_ (h b)) m) /\ can (at_ (h' c) m))
    /\ (zlen (h' a) = n /\ forall i, 0 <= i < n -> near (at_ (h' a) i))
    /\ (zlen (h' b) = n /\ forall i, 0 <= i < n -> near (at_ (h' b) i))
    /\ (forall p, p <> a -> p <> b -> p <> c -> h' p = h p).

Lemma near_good x : zlen x = n -> (forall i, 0 <= i < n -> near (at_ x i)) -> good 10 x.
Proof.
  intros L H. split; [exact L|]. intros i Hi. rewrite L in Hi. specialize (H i Hi). unfold near, within in H.
  unfold w32. lia.
Qed.

Lemma repeats F G : stays F -> fwd_any 10 1014 F -> bwd_ok 10 1014 G ->
  repeatable (product F G (fun h c a b => mul_reduce_array_h h c n a b)).
Proof.
  intros HS HF HG h c a b Hab Hac Hbc La Lb Lc Na Nb.
  destruct (product_ok 10 1014 3 3 F G (fun h c a b => mul_reduce_array_h h c n a b) near near w32 can ltac:(lia)) with (h := h) (c := c) (a := a) (b := b)
    as (h' & E & L & R & O); auto.
  - intros x L Hx. destruct (HS x L Hx) as (r & E & Lr & Hr). exists r. split; [exact E|]. split; [exact Lr|].
    destruct (HF x (near_good x L Hx)) as [(r' & E' & _ & R')|[X|X]]; [|rewrite E in X; discriminate X..].
    assert (r' = r) as -> by (rewrite E in E'; injection E' as ->; reflexivity).
    intros j Hj. split; [apply R', Hj|apply Hr, Hj].
  - intros g c' a' b' Lc' La' Lb' H.
    destruct (mul_reduce_array_h_spec n g c' a' b' ltac:(lia) Lc' La' Lb') as (g' & E & L & R & _ & O).
    { intros i Hi. destruct (H i Hi) as [X Y]. unfold near, within in X, Y. unfold mulrange.
      assert (B := prod_abs300 _ _ X Y). clear - B. lia. }
    exists g'. split; [exact E|]. split; [exact L|]. split; [|exact O]. intros i Hi. rewrite R by exact Hi.
    split; [apply redz_cong|]. destruct (H i Hi) as [X Y]. unfold near, within in X, Y.
    assert (B : - 90000000000 <= at_ (g a') i * at_ (g b') i <= 90000000000).
    { apply prod_abs300; assumption. }
    apply redz_bounds in B. change (90000000000 / 4096) with 21972656 in B.
    change (-90000000000 / 4096) with (-21972657) in B. unfold w32. lia.
  - exists h'. split; [exact E|]. split; [exact L|]. split; [exact R|].
    unfold n in E. destruct (prod_any 10 1014 Hk F G HF HG h c a b Hab Lc (near_good _ La Na) (near_good _ Lb Nb))
      as [(g & E' & _ & _ & Ra & Rb & _)|[X|X]]; [|rewrite E in X; discriminate X..].
    assert (g = h') as -> by (rewrite E in E'; injection E' as ->; reflexivity).
    specialize (Ra Hac). specialize (Rb Hbc).
    destruct (HS _ La Na) as (ra & Ea & Ka). destruct (HS _ Lb Nb) as (rb & Eb & Kb).
    rewrite Ea in Ra. injection Ra as <-. rewrite Eb in Rb. injection Rb as <-. auto.
Qed.

Lemma repeatable1 : repeatable (red_product1 false n T).
Proof. exact (repeats _ _ stays_ct (fwd_plain_any false 10 1014 T Hk HT _ (any_ct_std2rev 10 1014 T Hk Hpsi HT)) (r_bwd_ct 10 1014 T Hk Hpsi HT)). Qed.
Lemma repeatable2 : repeatable (red_product2 false n T).
Proof. exact (repeats _ _ stays_gs (fwd_plain_any false 10 1014 T Hk HT _ (any_gs_std2rev 10 1014 T Hk Hpsi HT)) (r_bwd_ct 10 1014 T Hk Hpsi HT)). Qed.
Lemma repeatable3 : repeatable (red_product3 false n T).
Proof. exact (repeats _ _ stays_ct (fwd_plain_any false 10 1014 T Hk HT _ (any_ct_std2rev 10 1014 T Hk Hpsi HT)) (r_bwd_gs 10 1014 T Hk Hpsi HT)). Qed.
Lemma repeatable4 : repeatable (red_product4 false n T).
Proof. exact (repeats _ _ stays_gs (fwd_plain_any false 10 1014 T Hk HT _ (any_gs_std2rev 10 1014 T Hk Hpsi HT)) (r_bwd_gs 10 1014 T Hk Hpsi HT)). Qed.
Lemma repeatable5 : repeatable (red_product5 false n T).
Proof. exact (repeats _ _ stays_mul (fwd_mul_any false 10 1014 T Hk Hpsi HT) (r_bwd_mul 10 1014 T Hk Hpsi HT)). Qed.
End P.
