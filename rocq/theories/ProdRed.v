(** The products of src/ntt_red{16,256,512,1024}.c. *)

From Coq Require Import ZArith List Bool Lia Setoid Morphisms.
From Verif Require Import CSem Spec Loops ModQ Conv HeapElem TransformGen Forms TableSpec
  ModelGen ModelProducts ProdGen NttElem ModelRed RedElem RedBfly RedTransforms RedRange.
Import ListNotations.
Open Scope Z_scope.

(** ** Bounds *)

Lemma ct_in : forallb (ct_check 30717) (seq 0 11) = true.
Proof. vm_compute. reflexivity. Qed.
Lemma gs_in9 : forallb (gs_check (-18432, 30717)) (seq 0 9) = true.
Proof. vm_compute. reflexivity. Qed.
Lemma gs_in_last : forallb (gs_check_last (-18432, 30717)) (seq 0 10) = true.
Proof. vm_compute. reflexivity. Qed.
Lemma ct_back : forallb (ct_check 12413) (seq 0 11) = true.
Proof. vm_compute. reflexivity. Qed.
Lemma gs_back : forallb (gs_check (-130, 12413)) (seq 0 10) = true.
Proof. vm_compute. reflexivity. Qed.
Lemma gs_back9 : forallb (gs_check (-130, 12413)) (seq 0 9) = true.
Proof. vm_compute. reflexivity. Qed.
Lemma gs_back_last : forallb (gs_check_last (-130, 12413)) (seq 0 10) = true.
Proof. vm_compute. reflexivity. Qed.

(** The results of the inverse transforms can be multiplied by [f]. *)
Definition can_mul (f : Z) (r : Z * Z) : bool :=
  let '(lo, hi) := r in
  (- 8796042698752 <=? f * lo) && (f * lo <=? 0) && (0 <=? f * hi) && (f * hi <=? 8796042698752).
Lemma gs_back_mul : forallb (fun m => can_mul 6144 (gs_last (gsb (-130, 12413) m))) (seq 0 10) = true.
Proof. vm_compute. reflexivity. Qed.
Lemma gs_back_scalar : forallb (fun m => can_mul 12288 (gsb (-130, 12413) m)) (seq 0 11) = true.
Proof. vm_compute. reflexivity. Qed.

Lemma prod_abs A B x y : -A <= x <= A -> -B <= y <= B -> - (A * B) <= x * y <= A * B.
Proof.
  intros H1 H2. apply Z.abs_le. rewrite Z.abs_mul. apply Z.mul_le_mono_nonneg; lia.
Qed.

Lemma ct_i32 b k : forallb (ct_check b) (seq 0 11) = true -> 1 <= k <= 10 ->
  0 <= ct_hi b k <= 2147483647 /\ 6144 * ct_hi b k <= 8796042698752.
Proof.
  intros H Hk. unfold ct_hi.
  assert (H1 := check_seq _ _ H (Z.to_nat k) ltac:(lia)).
  assert (H2 := check_seq _ _ H (Z.to_nat (k - 1)) ltac:(lia)).
  unfold ct_check in H1, H2. replace (S (Z.to_nat (k - 1))) with (Z.to_nat k) in H2 by lia. lia.
Qed.

Lemma gsp_i32 r k : forallb (gs_check_last r) (seq 0 10) = true -> 1 <= k <= 10 ->
  -2147483648 <= gsp_lo r k 0 /\ gsp_hi r k 0 <= 2147483647.
Proof.
  intros H Hk. unfold gsp_lo, gsp_hi. cbn [Z.leb Z.compare].
  assert (H1 := check_seq _ _ H (Z.to_nat (k - 1)) ltac:(lia)).
  unfold gs_check_last in H1. destruct (gs_last _) as [lo hi]. cbn [fst snd]. lia.
Qed.

Definition inp (v : Z) : Prop := -6144 <= v <= 12288.
Definition mid (v : Z) : Prop := -18432 <= v <= 30717.
Definition w32 (v : Z) : Prop := -2147483648 <= v <= 2147483647.
Definition once (v : Z) : Prop := -524287 <= v <= 536573.
Definition twice (v : Z) : Prop := -130 <= v <= 12413.
(** What the multiplication by a table entry (at most 6144) or by the scaling
    factor (at most 12288) accepts. *)
Definition mulin (f v : Z) : Prop := - 8796042698752 <= f * v <= 8796042698752.

Lemma redz_w32 z : mulrange z -> w32 (redz z).
Proof. intros H. apply redz_bounds in H. cbn in H. unfold w32. lia. Qed.

Lemma mulin_table v p : mulin 6144 v -> -6144 <= p <= 6144 -> mulrange (v * p).
Proof.
  intros Hv Hp. assert (H := prod_abs (Z.abs v) 6144 v p ltac:(lia) Hp).
  unfold mulin in Hv. unfold mulrange. lia.
Qed.
Lemma mulin_scalar v p : mulin 12288 v -> 0 <= p < 12289 -> mulrange (v * p).
Proof.
  intros Hv Hp. assert (H := prod_abs (Z.abs v) 12288 v p ltac:(lia) ltac:(lia)).
  unfold mulin in Hv. unfold mulrange. lia.
Qed.
Lemma once_mul x y : once x -> once y -> mulrange (x * y).
Proof.
  unfold once. intros H1 H2. assert (H := prod_abs 536573 536573 x y ltac:(lia) ltac:(lia)).
  unfold mulrange. lia.
Qed.

Lemma ct_out_w32 b k v : forallb (ct_check b) (seq 0 11) = true -> 1 <= k <= 10 ->
  rng (ct_lo b) (ct_hi b) k v -> w32 v /\ mulin 6144 v.
Proof.
  intros H Hk Hv. destruct (ct_i32 b k H Hk) as [H1 H2].
  unfold rng, ct_lo in Hv. fold (ct_hi b k) in Hv. unfold w32, mulin. lia.
Qed.
Lemma gsp_out_w32 r k v : forallb (gs_check_last r) (seq 0 10) = true -> 1 <= k <= 10 ->
  rng (gsp_lo r k) (gsp_hi r k) 0 v -> w32 v.
Proof.
  intros H Hk Hv. assert (HB := gsp_i32 r k H Hk). unfold rng in Hv. unfold w32. lia.
Qed.
Lemma gsp_out_mul k v : 1 <= k <= 10 ->
  rng (gsp_lo (-130, 12413) k) (gsp_hi (-130, 12413) k) 0 v -> mulin 6144 v.
Proof.
  intros Hk Hv. assert (Hm : (Z.to_nat (k - 1) < 10)%nat) by lia.
  assert (HB := check_seq _ _ gs_back_mul _ Hm). cbv beta in HB.
  unfold rng, gsp_lo, gsp_hi in Hv. cbn [Z.leb Z.compare] in Hv.
  destruct (gs_last _) as [lo hi]. cbn [fst snd] in Hv. unfold can_mul in HB. unfold mulin. lia.
Qed.
Lemma gs_out_scalar k v : 1 <= k <= 10 ->
  rng (gs_lo (-130, 12413) k) (gs_hi (-130, 12413) k) 0 v -> mulin 12288 v.
Proof.
  intros Hk Hv. assert (Hm : (Z.to_nat (k - 0) < 11)%nat) by lia.
  assert (HB := check_seq _ _ gs_back_scalar _ Hm). cbv beta in HB.
  unfold rng, gs_lo, gs_hi in Hv. destruct (gsb _ _) as [lo hi]. cbn [fst snd] in Hv.
  unfold can_mul in HB. unfold mulin. lia.
Qed.

Section P.
Variables (sh : bool) (k psi : Z) (T : red_tables).
Hypothesis Hk : 1 <= k <= 10.
Hypothesis Hpsi : eqQ (psi ^ (2 ^ k)) (-1).
Hypothesis HT : red_tables_ok k psi T.
Let n := 2 ^ k.
Let psii := r_inv_psi T.

Let Hk31 : 0 <= k <= 31.
Proof. lia. Qed.
Let Hinv : eqQ (psi * psii) 1.
Proof. apply HT. Qed.
Let Hnpos : 0 < n.
Proof. apply pow2_pos. lia. Qed.
Let Hn32 : 0 <= n < 4294967296.
Proof. assert (H := pow31 k ltac:(lia)). unfold n in *. lia. Qed.

Let root : 0 < k -> eqQ ((psi ^ 2) ^ (2 ^ (k - 1))) (-1).
Proof. apply omega_root, Hpsi. Qed.
Let iroot_n : eqQ (psii ^ (2 ^ k)) (-1).
Proof. eapply psi_inv_root; eauto; lia. Qed.
Let iroot : 0 < k -> eqQ ((psii ^ 2) ^ (2 ^ (k - 1))) (-1).
Proof. apply omega_root, iroot_n. Qed.

Let Hw : eqQ (r_omega T) (psi ^ 2).
Proof. apply HT. Qed.
Let Hwi : eqQ (r_inv_omega T) (psii ^ 2).
Proof. eapply inv_sq; [exact Hw|exact Hinv|apply HT]. Qed.

Let tab_range p f : table_at k p f -> all_in (-6144) 6144 p ->
  forall i, 1 <= i < 2 ^ k -> -6144 <= at_ p i <= 6144.
Proof. intros [HL _] HA i Hi. apply all_in_at; [exact HA|lia]. Qed.
Let pow_range x y p : power_table (2 ^ k) x y p -> all_in (-6144) 6144 p ->
  forall i, 0 <= i < n -> -6144 <= at_ p i <= 6144.
Proof. intros [HL _] HA i Hi. apply all_in_at; [exact HA|unfold n in *; lia]. Qed.

(** One in-place step: from entries [x i] satisfying [P] to entries congruent
    to [g i (x i)] satisfying [R]. *)
Definition step (f : list Z -> res (list Z)) (P R : Z -> Prop) (g : Z -> Z -> Z) : Prop :=
  forall x, zlen x = n -> (forall i, 0 <= i < n -> P (at_ x i)) ->
  exists r, f x = Ok r /\ zlen r = n /\ (forall i, 0 <= i < n ->
    eqQ (at_ r i) (g i (at_ x i)) /\ R (at_ r i)).

Lemma st_shift : step (maybe_shift sh n) inp inp (fun _ v => v).
Proof.
  intros x HL Hx. unfold maybe_shift. destruct sh.
  - destruct (shift_array_spec x n) as (r & E & L & R & _); [exact Hn32|rewrite HL; apply Z.le_refl| |].
    { intros i Hi. specialize (Hx i Hi). unfold inp in Hx. lia. }
    exists r. split; [exact E|]. split; [rewrite L; exact HL|]. intros i Hi. rewrite R by exact Hi.
    specialize (Hx i Hi). unfold inp in *. destruct (Z.ltb_spec 6144 (at_ x i)).
    + split; [|lia]. unfold eqQ, Spec.Q.
      replace (at_ x i - 12289) with (at_ x i + (-1) * 12289) by lia. apply Z.mod_add. discriminate.
    + split; [reflexivity|lia].
  - exists x. split; [reflexivity|]. split; [exact HL|]. intros i Hi. split; [reflexivity|apply Hx, Hi].
Qed.

Let inv3 z : eqQ (3 * (8193 * z)) z.
Proof. unfold eqQ, Spec.Q. replace (3 * (8193 * z)) with (z + (2 * z) * 12289) by ring. apply Z.mod_add. discriminate. Qed.

Lemma st_mulpsi : step (fun x => mul_reduce_array16 x n (red_psi_powers T)) inp mid
  (fun i v => v * psi ^ i).
Proof.
  intros x HL Hx. destruct (rok_psi_powers _ _ _ HT) as [HP HR].
  assert (RP := pow_range _ _ _ HP HR).
  assert (PR : forall i, 0 <= i < n -> -75497472 <= at_ x i * at_ (red_psi_powers T) i <= 75497472).
  { intros i Hi. specialize (Hx i Hi). specialize (RP i Hi). unfold inp in Hx.
    apply (prod_abs 12288 6144); lia. }
  destruct (mul_reduce_array16_spec x n (red_psi_powers T)) as (r & E & L & R & _);
    [exact Hn32|rewrite HL; apply Z.le_refl|rewrite (proj1 HP); apply Z.le_refl| |].
  { intros i Hi. specialize (PR i Hi). unfold mulrange. lia. }
  exists r. split; [exact E|]. split; [rewrite L; exact HL|]. intros i Hi. rewrite R by exact Hi. split.
  - rewrite redz_cong. rewrite (proj2 HP) by exact Hi. rewrite <- (inv3 (at_ x i * psi ^ i)). qring.
  - exact (redz_bounds _ _ _ (PR i Hi)).
Qed.

Lemma st_reduce : step (fun x => reduce_array x n) w32 once (fun _ v => 3 * v).
Proof.
  intros x HL Hx.
  destruct (reduce_array_spec x n) as (r & E & L & R & _); [exact Hn32|rewrite HL; apply Z.le_refl|exact Hx|].
  exists r. split; [exact E|]. split; [rewrite L; exact HL|]. intros i Hi. rewrite R by exact Hi.
  split; [apply redz_cong|apply redz_i32, Hx, Hi].
Qed.

Lemma st_reduce2 : step (fun x => reduce_array_twice x n) w32 twice (fun _ v => 9 * v).
Proof.
  intros x HL Hx.
  destruct (reduce_array_twice_spec x n) as (r & E & L & R & _); [exact Hn32|rewrite HL; apply Z.le_refl|exact Hx|].
  exists r. split; [exact E|]. split; [rewrite L; exact HL|]. intros i Hi. rewrite R by exact Hi.
  split; [|apply redz_twice, Hx, Hi]. rewrite redz_cong, redz_cong. qring.
Qed.

Lemma st_correct : step (fun x => correct x n) twice can (fun _ v => v).
Proof.
  intros x HL Hx.
  destruct (correct_spec x n) as (r & E & L & R & _); [exact Hn32|rewrite HL; apply Z.le_refl| |].
  { intros i Hi. specialize (Hx i Hi). unfold twice in Hx. lia. }
  exists r. split; [exact E|]. split; [rewrite L; exact HL|]. intros i Hi. rewrite R by exact Hi.
  split; [apply eqQ_modn|apply can_mod].
Qed.

Lemma st_scaled : step (fun x => mul_reduce_array16 x n (red_scaled_inv_psi_powers T))
  (mulin 6144) w32 (fun i v => 3 * (v * (rescale8 T * psii ^ i))).
Proof.
  intros x HL Hx. destruct (rok_scaled _ _ _ HT) as [HP HR].
  assert (RP := pow_range _ _ _ HP HR).
  assert (PR : forall i, 0 <= i < n -> mulrange (at_ x i * at_ (red_scaled_inv_psi_powers T) i)).
  { intros i Hi. apply mulin_table; [apply Hx|apply RP]; exact Hi. }
  destruct (mul_reduce_array16_spec x n (red_scaled_inv_psi_powers T)) as (r & E & L & R & _);
    [exact Hn32|rewrite HL; apply Z.le_refl|rewrite (proj1 HP); apply Z.le_refl|exact PR|].
  exists r. split; [exact E|]. split; [rewrite L; exact HL|]. intros i Hi. rewrite R by exact Hi.
  split; [|apply redz_w32, PR, Hi].
  rewrite redz_cong. rewrite (proj2 HP) by exact Hi. reflexivity.
Qed.

Lemma st_scalar : step (fun x => scalar_mul_reduce_array x n (rescale8 T))
  (mulin 12288) w32 (fun i v => 3 * (v * rescale8 T)).
Proof.
  intros x HL Hx. destruct (rok_rescale8 _ _ _ HT) as [_ HR]. change Spec.Q with 12289 in HR.
  assert (PR : forall i, 0 <= i < n -> mulrange (at_ x i * rescale8 T)).
  { intros i Hi. apply mulin_scalar; [apply Hx, Hi|exact HR]. }
  destruct (scalar_mul_reduce_array_spec x n (rescale8 T)) as (r & E & L & R & _);
    [exact Hn32|rewrite HL; apply Z.le_refl|exact PR|].
  exists r. split; [exact E|]. split; [rewrite L; exact HL|]. intros i Hi. rewrite R by exact Hi.
  split; [apply redz_cong|apply redz_w32, PR, Hi].
Qed.

(** ** Forward part *)
Definition fwd_ok (F : list (list Z -> res (list Z))) : Prop :=
  forall x, zlen x = n -> (forall i, 0 <= i < n -> inp (at_ x i)) ->
  exists r, runs F x = Ok r /\ zlen r = n /\ (forall j, 0 <= j < n ->
     eqQ (at_ r (bitrev k j)) (3 * NTT n (psi ^ 2) (fun i => at_ x i * psi ^ i) j)
     /\ once (at_ r j)).

(** A forward transform on [mid] values. *)
Definition std2rev_ok (f : list Z -> res (list Z)) : Prop :=
  forall x, zlen x = n -> (forall i, 0 <= i < n -> mid (at_ x i)) ->
  exists r, f x = Ok r /\ zlen r = n /\ (forall j, 0 <= j < n ->
    eqQ (at_ r (bitrev k j)) (NTT n (psi ^ 2) (at_ x) j) /\ w32 (at_ r j)).

Lemma r_ct_std2rev_ok : std2rev_ok (r_ct_std2rev n T).
Proof.
  destruct (rok_omega_powers_rev _ _ _ HT) as [H1 H2]. assert (H3 := tab_range _ _ H1 H2).
  apply (omega_table_rev_root _ _ _ _ _ Hw) in H1. intros x HL Hx.
  destruct (ntt_red_ct_std2rev_spec k (psi ^ 2) x _ (ct_lo 30717) (ct_hi 30717) Hk31 root H1 H3)
    as (r & E & L & R); [|exact HL| |].
  - intros l Hl. apply (ct_grow_ok _ 11); [exact ct_in|clear -Hl Hk; lia].
  - intros i Hi. specialize (Hx i Hi). unfold mid in Hx. unfold rng, ct_lo, ct_hi. cbn. lia.
  - exists r. split; [exact E|]. split; [exact L|]. intros j Hj. destruct (R j Hj) as [Ra Rb].
    split; [exact Ra|]. apply (ct_out_w32 _ k _ ct_in Hk Rb).
Qed.

Lemma r_gs_std2rev_ok : std2rev_ok (r_gs_std2rev n T).
Proof.
  destruct (rok_omega_powers _ _ _ HT) as [H1 H2]. assert (H3 := tab_range _ _ H1 H2).
  apply (omega_table_root _ _ _ _ _ Hw) in H1. intros x HL Hx.
  destruct (ntt_red_gs_std2rev_spec k (psi ^ 2) x _ (gsp_lo (-18432, 30717) k) (gsp_hi (-18432, 30717) k)
     Hk31 root H1 H3) as (r & E & L & R); [| |exact HL| |].
  - intros l Hl. apply (gsp_grow0_ok _ 9); [exact gs_in9|exact gs_in_last|clear -Hk; lia|clear -Hl; lia].
  - intros l Hl. apply (gsp_grow_ok _ 9); [exact gs_in9|clear -Hk; lia|clear -Hl; lia].
  - intros i Hi. specialize (Hx i Hi). unfold mid in Hx. unfold rng, gsp_lo, gsp_hi, gs_lo, gs_hi.
    replace (k <=? 0) with false by lia. rewrite Z.sub_diag. cbn. lia.
  - exists r. split; [exact E|]. split; [exact L|]. intros j Hj. destruct (R j Hj) as [Ra Rb].
    split; [exact Ra|]. exact (gsp_out_w32 _ k _ gs_in_last Hk Rb).
Qed.

Lemma fwd_plain s m f d : step s inp inp (fun _ v => v) -> step m inp mid (fun i v => v * psi ^ i) ->
  std2rev_ok f -> step d w32 once (fun _ v => 3 * v) ->
  fwd_ok [s; m; f; d].
Proof.
  intros Hs Hm Hf Hd x HL Hx.
  destruct (Hs x HL Hx) as (x1 & E1 & L1 & R1).
  destruct (Hm x1 L1 (fun i Hi => proj2 (R1 i Hi))) as (x2 & E2 & L2 & R2).
  destruct (Hf x2 L2 (fun i Hi => proj2 (R2 i Hi))) as (x3 & E3 & L3 & R3).
  destruct (Hd x3 L3 (fun i Hi => proj2 (R3 i Hi))) as (x4 & E4 & L4 & R4).
  exists x4. cbn [runs]. rewrite E1. cbn [bind]. rewrite E2. cbn [bind]. rewrite E3. cbn [bind].
  rewrite E4. split; [reflexivity|]. split; [exact L4|]. intros j Hj. split; [|apply R4, Hj].
  rewrite (proj1 (R4 _ (bitrev_range k j ltac:(lia)))), (proj1 (R3 j Hj)).
  apply eqQ_mul; [reflexivity|]. apply NTT_extQ. intros i Hi.
  rewrite (proj1 (R2 i Hi)), (proj1 (R1 i Hi)). reflexivity.
Qed.

Lemma r_fwd_ct : fwd_ok [maybe_shift sh n; (fun x => mul_reduce_array16 x n (red_psi_powers T));
  r_ct_std2rev n T; (fun x => reduce_array x n)].
Proof. apply fwd_plain; [apply st_shift|apply st_mulpsi|apply r_ct_std2rev_ok|apply st_reduce]. Qed.
Lemma r_fwd_gs : fwd_ok [maybe_shift sh n; (fun x => mul_reduce_array16 x n (red_psi_powers T));
  r_gs_std2rev n T; (fun x => reduce_array x n)].
Proof. apply fwd_plain; [apply st_shift|apply st_mulpsi|apply r_gs_std2rev_ok|apply st_reduce]. Qed.

(** A multiplication by the powers of psi combined with a forward transform. *)
Definition mulntt_ok (f : list Z -> res (list Z)) : Prop :=
  forall x, zlen x = n -> (forall i, 0 <= i < n -> inp (at_ x i)) ->
  exists r, f x = Ok r /\ zlen r = n /\ (forall j, 0 <= j < n ->
    eqQ (at_ r (bitrev k j)) (NTT n (psi ^ 2) (fun i => at_ x i * psi ^ i) j) /\ w32 (at_ r j)).

Lemma r_mulntt_ok : mulntt_ok (r_mulntt_ct_std2rev n T).
Proof.
  destruct (rok_mixed_rev _ _ _ HT) as [H1 H2]. assert (H3 := tab_range _ _ H1 H2).
  intros x HL Hx.
  destruct (mulntt_red_ct_std2rev_spec k psi x _ (ct_lo 30717) (ct_hi 30717) Hk31 Hpsi H1 H3)
    as (x2 & E2 & L2 & R2); [|exact HL| |].
  - intros l Hl. apply (ct_grow_ok _ 11); [exact ct_in|clear -Hl Hk; lia].
  - intros i Hi. assert (HB := Hx i Hi). unfold inp in HB. unfold rng, ct_lo, ct_hi. cbn. lia.
  - exists x2. split; [exact E2|]. split; [exact L2|]. intros j Hj. split; [apply R2, Hj|].
    apply (ct_out_w32 _ k _ ct_in Hk (proj2 (R2 j Hj))).
Qed.

Lemma fwd_mul s f d : step s inp inp (fun _ v => v) -> mulntt_ok f -> step d w32 once (fun _ v => 3 * v) ->
  fwd_ok [s; f; d].
Proof.
  intros Hs Hf Hd x HL Hx.
  destruct (Hs x HL Hx) as (x1 & E1 & L1 & R1).
  destruct (Hf x1 L1 (fun i Hi => proj2 (R1 i Hi))) as (x2 & E2 & L2 & R2).
  destruct (Hd x2 L2 (fun i Hi => proj2 (R2 i Hi))) as (x3 & E3 & L3 & R3).
  exists x3. cbn [runs]. rewrite E1. cbn [bind]. rewrite E2. cbn [bind].
  rewrite E3. split; [reflexivity|]. split; [exact L3|]. intros j Hj. split; [|apply R3, Hj].
  rewrite (proj1 (R3 _ (bitrev_range k j ltac:(lia)))), (proj1 (R2 j Hj)).
  apply eqQ_mul; [reflexivity|]. apply NTT_extQ. intros i Hi. rewrite (proj1 (R1 i Hi)). reflexivity.
Qed.

Lemma r_fwd_mul : fwd_ok [maybe_shift sh n; r_mulntt_ct_std2rev n T; (fun x => reduce_array x n)].
Proof. apply fwd_mul; [apply st_shift|apply r_mulntt_ok|apply st_reduce]. Qed.

(** ** Backward part *)
Definition bwd_ok (G : list (list Z -> res (list Z))) : Prop :=
  forall x A B, zlen x = n -> (forall i, 0 <= i < n -> w32 (at_ x i)) ->
  (forall j, 0 <= j < n -> eqQ (at_ x (bitrev k j)) (3 * 3 * 3 *
     (NTT n (psi ^ 2) (fun i => A i * psi ^ i) j * NTT n (psi ^ 2) (fun i => B i * psi ^ i) j))) ->
  exists r, runs G x = Ok r /\ zlen r = n /\ (forall m, 0 <= m < n ->
     eqQ (at_ r m) (negacyclic n A B m) /\ can (at_ r m)).

(** An inverse transform on [twice] values. *)
Definition rev2std_ok (f : list Z -> res (list Z)) : Prop :=
  forall x, zlen x = n -> (forall i, 0 <= i < n -> twice (at_ x i)) ->
  exists r, f x = Ok r /\ zlen r = n /\ (forall j, 0 <= j < n ->
    eqQ (at_ r j) (NTT n (psii ^ 2) (fun i => at_ x (bitrev k i)) j) /\ mulin 6144 (at_ r j)).

Lemma r_intt_ct_ok : rev2std_ok (r_intt_ct_rev2std n T).
Proof.
  destruct (rok_inv_omega_powers _ _ _ HT) as [H1 H2]. assert (H3 := tab_range _ _ H1 H2).
  apply (omega_table_root _ _ _ _ _ Hwi) in H1. intros x HL Hx.
  destruct (ntt_red_ct_rev2std_spec k (psii ^ 2) x _ (ct_lo 12413) (ct_hi 12413) Hk31 iroot H1 H3)
    as (r & E & L & R); [|exact HL| |].
  - intros l Hl. apply (ct_grow_ok _ 11); [exact ct_back|clear -Hl Hk; lia].
  - intros i Hi. specialize (Hx i Hi). unfold twice in Hx. unfold rng, ct_lo, ct_hi. cbn. lia.
  - exists r. split; [exact E|]. split; [exact L|]. intros j Hj. destruct (R j Hj) as [Ra Rb].
    split; [exact Ra|]. apply (ct_out_w32 _ k _ ct_back Hk Rb).
Qed.

Lemma r_intt_gs_ok : rev2std_ok (r_intt_gs_rev2std n T).
Proof.
  destruct (rok_inv_omega_powers_rev _ _ _ HT) as [H1 H2]. assert (H3 := tab_range _ _ H1 H2).
  apply (omega_table_rev_root _ _ _ _ _ Hwi) in H1. intros x HL Hx.
  destruct (ntt_red_gs_rev2std_spec k (psii ^ 2) x _ (gsp_lo (-130, 12413) k) (gsp_hi (-130, 12413) k)
     Hk31 iroot H1 H3) as (r & E & L & R); [| |exact HL| |].
  - intros l Hl. apply (gsp_grow0_ok _ 9); [exact gs_back9|exact gs_back_last|clear -Hk; lia|clear -Hl; lia].
  - intros l Hl. apply (gsp_grow_ok _ 9); [exact gs_back9|clear -Hk; lia|clear -Hl; lia].
  - intros i Hi. specialize (Hx i Hi). unfold twice in Hx. unfold rng, gsp_lo, gsp_hi, gs_lo, gs_hi.
    replace (k <=? 0) with false by lia. rewrite Z.sub_diag. cbn. lia.
  - exists r. split; [exact E|]. split; [exact L|]. intros j Hj. destruct (R j Hj) as [Ra Rb].
    split; [exact Ra|]. exact (gsp_out_mul k _ Hk Rb).
Qed.

Let scale_ok m A B c s : 0 <= m < n -> eqQ (3 ^ 8 * n * s) 1 ->
  (forall j, 0 <= j < n -> eqQ (c j) (3 * 3 * 3 *
     (NTT n (psi ^ 2) (fun i => A i * psi ^ i) j * NTT n (psi ^ 2) (fun i => B i * psi ^ i) j))) ->
  eqQ (9 * (3 * (NTT n (psii ^ 2) (fun j => 9 * c j) m * (s * psii ^ m)))) (negacyclic n A B m).
Proof.
  intros Hm Hs Hc.
  set (d := fun j => NTT n (psi ^ 2) (fun i => A i * psi ^ i) j * NTT n (psi ^ 2) (fun i => B i * psi ^ i) j).
  assert (E : eqQ (NTT n (psii ^ 2) (fun j => 9 * c j) m) (243 * NTT n (psii ^ 2) d m)).
  { rewrite <- NTT_scale. apply NTT_extQ. intros j Hj. rewrite Hc by exact Hj. unfold d. qring. }
  rewrite E.
  transitivity (NTT n (psii ^ 2) d m * (3 ^ 8 * s * psii ^ m)); [qring|].
  rewrite <- (Z.mul_1_l (negacyclic n A B m)).
  eapply unscale with (s := 3 ^ 8 * s) (psi := psi) (psii := psii);
    [lia|exact Hpsi|exact Hinv| |exact Hm| |reflexivity].
  - intros j Hj. reflexivity.
  - rewrite <- Hs. unfold n. qring.
Qed.

Lemma bwd_plain d f m c : step d w32 twice (fun _ v => 9 * v) -> rev2std_ok f ->
  step m (mulin 6144) w32 (fun i v => 3 * (v * (rescale8 T * psii ^ i))) -> step c twice can (fun _ v => v) ->
  bwd_ok [d; f; m; d; c].
Proof.
  intros Hd Hf Hm Hr x A B HL Hx Hc.
  destruct (Hd x HL Hx) as (x1 & E1 & L1 & R1).
  destruct (Hf x1 L1 (fun i Hi => proj2 (R1 i Hi))) as (x2 & E2 & L2 & R2).
  destruct (Hm x2 L2 (fun i Hi => proj2 (R2 i Hi))) as (x3 & E3 & L3 & R3).
  destruct (Hd x3 L3 (fun i Hi => proj2 (R3 i Hi))) as (x4 & E4 & L4 & R4).
  destruct (Hr x4 L4 (fun i Hi => proj2 (R4 i Hi))) as (x5 & E5 & L5 & R5).
  exists x5. cbn [runs]. rewrite E1. cbn [bind]. rewrite E2. cbn [bind]. rewrite E3. cbn [bind].
  rewrite E4. cbn [bind]. rewrite E5. split; [reflexivity|]. split; [exact L5|].
  intros q Hq. split; [|apply R5, Hq].
  rewrite (proj1 (R5 q Hq)), (proj1 (R4 q Hq)), (proj1 (R3 q Hq)), (proj1 (R2 q Hq)).
  rewrite <- (scale_ok q A B (fun j => at_ x (bitrev k j)) (rescale8 T) Hq (proj1 (rok_rescale8 _ _ _ HT)) Hc).
  apply eqQ_mul; [reflexivity|]. apply eqQ_mul; [reflexivity|]. apply eqQ_mul; [|reflexivity].
  apply NTT_extQ. intros j Hj. apply R1. apply bitrev_range. lia.
Qed.

Lemma r_bwd_ct : bwd_ok [(fun x => reduce_array_twice x n); r_intt_ct_rev2std n T;
          (fun x => mul_reduce_array16 x n (red_scaled_inv_psi_powers T));
          (fun x => reduce_array_twice x n); (fun x => correct x n)].
Proof. apply bwd_plain; [apply st_reduce2|apply r_intt_ct_ok|apply st_scaled|apply st_correct]. Qed.
Lemma r_bwd_gs : bwd_ok [(fun x => reduce_array_twice x n); r_intt_gs_rev2std n T;
          (fun x => mul_reduce_array16 x n (red_scaled_inv_psi_powers T));
          (fun x => reduce_array_twice x n); (fun x => correct x n)].
Proof. apply bwd_plain; [apply st_reduce2|apply r_intt_gs_ok|apply st_scaled|apply st_correct]. Qed.

(** An inverse transform combined with the multiplication by the powers of psi^-1. *)
Definition inttmul_ok (f : list Z -> res (list Z)) : Prop :=
  forall x, zlen x = n -> (forall i, 0 <= i < n -> twice (at_ x i)) ->
  exists r, f x = Ok r /\ zlen r = n /\ (forall j, 0 <= j < n ->
    eqQ (at_ r j) (psii ^ j * NTT n (psii ^ 2) (fun i => at_ x (bitrev k i)) j) /\ mulin 12288 (at_ r j)).

Lemma r_inttmul_ok : inttmul_ok (r_inttmul_gs_rev2std n T).
Proof.
  destruct (rok_inv_mixed_rev _ _ _ HT) as [H1 H2]. assert (H3 := tab_range _ _ H1 H2).
  intros x HL Hx.
  destruct (nttmul_red_gs_rev2std_spec k psii x _ (gs_lo (-130, 12413) k) (gs_hi (-130, 12413) k)
     Hk31 iroot_n H1 H3) as (x2 & E2 & L2 & R2); [|exact HL| |].
  - intros l Hl. apply (gs_grow_ok _ 10); [exact gs_back|clear -Hk; lia|clear -Hl; lia].
  - intros i Hi. assert (HB := Hx i Hi). unfold twice in HB. unfold rng, gs_lo, gs_hi.
    rewrite Z.sub_diag. cbn. lia.
  - exists x2. split; [exact E2|]. split; [exact L2|]. intros j Hj. split; [apply R2, Hj|].
    exact (gs_out_scalar k _ Hk (proj2 (R2 j Hj))).
Qed.

Lemma bwd_mul d f m c : step d w32 twice (fun _ v => 9 * v) -> inttmul_ok f ->
  step m (mulin 12288) w32 (fun i v => 3 * (v * rescale8 T)) -> step c twice can (fun _ v => v) ->
  bwd_ok [d; f; m; d; c].
Proof.
  intros Hd Hf Hm Hr x A B HL Hx Hc.
  destruct (Hd x HL Hx) as (x1 & E1 & L1 & R1).
  destruct (Hf x1 L1 (fun i Hi => proj2 (R1 i Hi))) as (x2 & E2 & L2 & R2).
  destruct (Hm x2 L2 (fun i Hi => proj2 (R2 i Hi))) as (x3 & E3 & L3 & R3).
  destruct (Hd x3 L3 (fun i Hi => proj2 (R3 i Hi))) as (x4 & E4 & L4 & R4).
  destruct (Hr x4 L4 (fun i Hi => proj2 (R4 i Hi))) as (x5 & E5 & L5 & R5).
  exists x5. cbn [runs]. rewrite E1. cbn [bind]. rewrite E2. cbn [bind]. rewrite E3. cbn [bind].
  rewrite E4. cbn [bind]. rewrite E5. split; [reflexivity|]. split; [exact L5|].
  intros q Hq. split; [|apply R5, Hq].
  rewrite (proj1 (R5 q Hq)), (proj1 (R4 q Hq)), (proj1 (R3 q Hq)), (proj1 (R2 q Hq)).
  rewrite <- (scale_ok q A B (fun j => at_ x (bitrev k j)) (rescale8 T) Hq (proj1 (rok_rescale8 _ _ _ HT)) Hc).
  apply eqQ_mul; [reflexivity|]. apply eqQ_mul; [reflexivity|].
  transitivity (NTT (2 ^ k) (psii ^ 2) (fun i => at_ x1 (bitrev k i)) q * (rescale8 T * psii ^ q)); [unfold n; qring|].
  apply eqQ_mul; [|reflexivity].
  apply NTT_extQ. intros j Hj. apply R1. apply bitrev_range. lia.
Qed.

Lemma r_bwd_mul : bwd_ok [(fun x => reduce_array_twice x n); r_inttmul_gs_rev2std n T;
          (fun x => scalar_mul_reduce_array x n (rescale8 T));
          (fun x => reduce_array_twice x n); (fun x => correct x n)].
Proof. apply bwd_mul; [apply st_reduce2|apply r_inttmul_ok|apply st_scalar|apply st_correct]. Qed.

Definition rproduct_spec (f : heap -> Z -> Z -> Z -> res heap) : Prop :=
  forall h c a b, a <> b -> zlen (h a) = n -> zlen (h b) = n -> zlen (h c) = n ->
  (forall i, 0 <= i < n -> inp (at_ (h a) i)) -> (forall i, 0 <= i < n -> inp (at_ (h b) i)) ->
  exists h', f h c a b = Ok h' /\ zlen (h' c) = n
    /\ (forall m, 0 <= m < n ->
         eqQ (at_ (h' c) m) (negacyclic n (at_ (h a)) (at_ (h b)) m) /\ can (at_ (h' c) m))
    /\ (forall p, p <> a -> p <> b -> p <> c -> h' p = h p).

(** The pointwise product of two transformed arrays. *)
Definition pointwise_ok (M : heap -> Z -> Z -> Z -> res heap) : Prop :=
  forall h c a b, n <= zlen (h c) -> n <= zlen (h a) -> n <= zlen (h b) ->
  (forall i, 0 <= i < n -> once (at_ (h a) i) /\ once (at_ (h b) i)) ->
  exists h', M h c a b = Ok h' /\ zlen (h' c) = zlen (h c) /\
    (forall i, 0 <= i < n -> eqQ (at_ (h' c) i) (3 * (at_ (h a) i * at_ (h b) i)) /\ w32 (at_ (h' c) i))
    /\ (forall p, p <> c -> h' p = h p).

Lemma r_pointwise : pointwise_ok (fun h c a b => mul_reduce_array_h h c n a b).
Proof.
  intros h c a b Lc La Lb HB.
  assert (PR : forall i, 0 <= i < n -> mulrange (at_ (h a) i * at_ (h b) i)).
  { intros i Hi. apply once_mul; apply HB, Hi. }
  destruct (mul_reduce_array_h_spec n h c a b Hn32 Lc La Lb PR) as (h' & E & L & R & _ & O).
  exists h'. split; [exact E|]. split; [exact L|]. split; [|exact O].
  intros i Hi. rewrite R by exact Hi. split; [apply redz_cong|apply redz_w32, PR, Hi].
Qed.

Lemma prod_ok F G M : fwd_ok F -> bwd_ok G -> pointwise_ok M -> rproduct_spec (product F G M).
Proof.
  intros HF HG HM h c a b. apply (product_ok k psi 3 3 F G _ inp once w32 can); [lia|exact HF|exact HM|exact HG].
Qed.

Lemma r_prod F G : fwd_ok F -> bwd_ok G ->
  rproduct_spec (product F G (fun h c a b => mul_reduce_array_h h c n a b)).
Proof. intros HF HG. exact (prod_ok F G _ HF HG r_pointwise). Qed.

Lemma r_product1_ok : rproduct_spec (red_product1 sh n T).
Proof. exact (r_prod _ _ r_fwd_ct r_bwd_ct). Qed.
Lemma r_product2_ok : rproduct_spec (red_product2 sh n T).
Proof. exact (r_prod _ _ r_fwd_gs r_bwd_ct). Qed.
Lemma r_product3_ok : rproduct_spec (red_product3 sh n T).
Proof. exact (r_prod _ _ r_fwd_ct r_bwd_gs). Qed.
Lemma r_product4_ok : rproduct_spec (red_product4 sh n T).
Proof. exact (r_prod _ _ r_fwd_gs r_bwd_gs). Qed.
Lemma r_product5_ok : rproduct_spec (red_product5 sh n T).
Proof. exact (r_prod _ _ r_fwd_mul r_bwd_mul). Qed.
End P.
