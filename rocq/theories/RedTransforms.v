(** The transforms of src/ntt_red.c compute the NTT, for any sequence of
    bounds that the rounds respect. *)

From Coq Require Import ZArith List Lia Setoid Morphisms.
From Verif Require Import CSem Spec Loops ModQ Stages Tower TransformGen Forms ModelRed
  RedElem RedBfly.
Import ListNotations.
Open Scope Z_scope.

Lemma ntt_red_ct_rev2std_spec k w a p lo hi :
  0 <= k <= 31 -> (0 < k -> eqQ (w ^ (2 ^ (k - 1))) (-1)) ->
  omega_table k w 8193 p -> (forall i, 1 <= i < 2 ^ k -> -6144 <= at_ p i <= 6144) ->
  (forall l, 0 <= l < k -> ct_grow lo hi l) ->
  zlen a = 2 ^ k -> (forall i, 0 <= i < 2 ^ k -> rng lo hi 0 (at_ a i)) ->
  exists r, ntt_red_ct_rev2std a (2 ^ k) p = Ok r /\ zlen r = 2 ^ k
    /\ (forall j, 0 <= j < 2 ^ k ->
         eqQ (at_ r j) (NTT (2 ^ k) w (fun i => at_ a (bitrev k i)) j) /\ rng lo hi k (at_ r j)).
Proof.
  intros Hk Hw Ht Hp Hg HL Ha. assert (Hn := pow31 k Hk).
  destruct (gen_A_up_plain k (2 ^ k) (zw k w) (rng lo hi) Hk eq_refl) with
    (body0 := bfly0_red) (body := ct_bfly_red) (p := p) (a := a)
    as (r & E & HLr & HR); auto.
  { apply tower_omega. exact Hw. }
  { apply Ht. }
  { intros. apply zw_0. }
  { intros l s Hl. apply bfly0_red_ct; [lia|]. apply Hg; lia. }
  { intros l j s Hl Hj. apply ct_bfly_red_ct; [lia | | | apply Hg; lia].
    - apply Hp. apply entry_range; lia.
    - rewrite (omega_table_z k w 8193 p Ht) by lia. apply inv3. }
  exists r. split; [exact E|]. split; [exact HLr|]. intros j Hj.
  destruct (HR j Hj) as [HE HB]. split; [|exact HB]. rewrite HE. clear HE.
  rewrite (form_ct_rev k w (at_ a)) by lia. reflexivity.
Qed.

Lemma mulntt_red_ct_rev2std_spec k w a p lo hi :
  0 <= k <= 31 -> eqQ (w ^ (2 ^ k)) (-1) ->
  mixed_table k w 8193 p -> (forall i, 1 <= i < 2 ^ k -> -6144 <= at_ p i <= 6144) ->
  (forall l, 0 <= l < k -> ct_grow lo hi l) ->
  zlen a = 2 ^ k -> (forall i, 0 <= i < 2 ^ k -> rng lo hi 0 (at_ a i)) ->
  exists r, mulntt_red_ct_rev2std a (2 ^ k) p = Ok r /\ zlen r = 2 ^ k
    /\ (forall j, 0 <= j < 2 ^ k ->
         eqQ (at_ r j) (NTT (2 ^ k) (w ^ 2) (fun i => at_ a (bitrev k i) * w ^ i) j) /\ rng lo hi k (at_ r j)).
Proof.
  intros Hk Hw Ht Hp Hg HL Ha. assert (Hn := pow31 k Hk).
  destruct (gen_A_up_mul k (2 ^ k) (zp k w) (rng lo hi) Hk eq_refl) with
    (body := ct_bfly_red) (p := p) (a := a)
    as (r & E & HLr & HR); auto.
  { apply tower_psi. exact Hw. }
  { exact bfly0_red. }
  { apply Ht. }
  { intros l j s Hl Hj. apply ct_bfly_red_ct; [lia | | | apply Hg; lia].
    - apply Hp. apply entry_range; lia.
    - rewrite (mixed_table_z k w 8193 p Ht) by lia. apply inv3. }
  exists r. split; [exact E|]. split; [exact HLr|]. intros j Hj.
  destruct (HR j Hj) as [HE HB]. split; [|exact HB]. rewrite HE. clear HE.
  rewrite (form_ct_rev_mul k w (at_ a)) by lia. reflexivity.
Qed.

Lemma ntt_red_ct_std2rev_spec k w a p lo hi :
  0 <= k <= 31 -> (0 < k -> eqQ (w ^ (2 ^ (k - 1))) (-1)) ->
  omega_table_rev k w 8193 p -> (forall i, 1 <= i < 2 ^ k -> -6144 <= at_ p i <= 6144) ->
  (forall l, 0 <= l < k -> ct_grow lo hi l) ->
  zlen a = 2 ^ k -> (forall i, 0 <= i < 2 ^ k -> rng lo hi 0 (at_ a i)) ->
  exists r, ntt_red_ct_std2rev a (2 ^ k) p = Ok r /\ zlen r = 2 ^ k
    /\ (forall j, 0 <= j < 2 ^ k ->
         eqQ (at_ r (bitrev k j)) (NTT (2 ^ k) w (at_ a) j) /\ rng lo hi k (at_ r j)).
Proof.
  intros Hk Hw Ht Hp Hg HL Ha. assert (Hn := pow31 k Hk).
  destruct (gen_B_up_plain k (2 ^ k) (zw k w) (rng lo hi) Hk eq_refl) with
    (body0 := bfly0_red) (body := ct_bfly_red) (p := p) (a := a)
    as (r & E & HLr & HR); auto.
  { apply tower_omega. exact Hw. }
  { apply Ht. }
  { intros. apply zw_0. }
  { intros l h s Hl Hh. apply bfly0_red_ct; [lia|]. apply Hg; lia. }
  { intros l j h s Hl Hj Hh. apply ct_bfly_red_ct; [lia | | | apply Hg; lia].
    - apply Hp. apply entry_range; lia.
    - rewrite (omega_table_rev_z k w 8193 p Ht) by lia. apply inv3. }
  exists r. split; [exact E|]. split; [exact HLr|]. intros j Hj.
  assert (R := bitrev_range k j ltac:(lia)).
  split; [|apply HR; lia].
  destruct (HR (bitrev k j) R) as [HE _]. rewrite HE. clear HE.
  rewrite (form_ct_std k w (at_ a)) by lia. reflexivity.
Qed.

Lemma mulntt_red_ct_std2rev_spec k w a p lo hi :
  0 <= k <= 31 -> eqQ (w ^ (2 ^ k)) (-1) ->
  mixed_table_rev k w 8193 p -> (forall i, 1 <= i < 2 ^ k -> -6144 <= at_ p i <= 6144) ->
  (forall l, 0 <= l < k -> ct_grow lo hi l) ->
  zlen a = 2 ^ k -> (forall i, 0 <= i < 2 ^ k -> rng lo hi 0 (at_ a i)) ->
  exists r, mulntt_red_ct_std2rev a (2 ^ k) p = Ok r /\ zlen r = 2 ^ k
    /\ (forall j, 0 <= j < 2 ^ k ->
         eqQ (at_ r (bitrev k j)) (NTT (2 ^ k) (w ^ 2) (fun i => at_ a i * w ^ i) j) /\ rng lo hi k (at_ r j)).
Proof.
  intros Hk Hw Ht Hp Hg HL Ha. assert (Hn := pow31 k Hk).
  destruct (gen_B_up_mul k (2 ^ k) (zp k w) (rng lo hi) Hk eq_refl) with
    (body := ct_bfly_red) (p := p) (a := a)
    as (r & E & HLr & HR); auto.
  { apply tower_psi. exact Hw. }
  { exact bfly0_red. }
  { apply Ht. }
  { intros l j h s Hl Hj Hh. apply ct_bfly_red_ct; [lia | | | apply Hg; lia].
    - apply Hp. apply entry_range; lia.
    - rewrite (mixed_table_rev_z k w 8193 p Ht) by lia. apply inv3. }
  exists r. split; [exact E|]. split; [exact HLr|]. intros j Hj.
  assert (R := bitrev_range k j ltac:(lia)).
  split; [|apply HR; lia].
  destruct (HR (bitrev k j) R) as [HE _]. rewrite HE. clear HE.
  rewrite (form_ct_std_mul k w (at_ a)) by lia. reflexivity.
Qed.

Lemma ntt_red_gs_rev2std_spec k w a p lo hi :
  0 <= k <= 31 -> (0 < k -> eqQ (w ^ (2 ^ (k - 1))) (-1)) ->
  omega_table_rev k w 8193 p -> (forall i, 1 <= i < 2 ^ k -> -6144 <= at_ p i <= 6144) ->
  (forall l, 0 <= l < k -> gs_grow0 lo hi l) ->
  (forall l, 1 <= l < k -> gs_grow lo hi l) ->
  zlen a = 2 ^ k -> (forall i, 0 <= i < 2 ^ k -> rng lo hi k (at_ a i)) ->
  exists r, ntt_red_gs_rev2std a (2 ^ k) p = Ok r /\ zlen r = 2 ^ k
    /\ (forall j, 0 <= j < 2 ^ k ->
         eqQ (at_ r j) (NTT (2 ^ k) w (fun i => at_ a (bitrev k i)) j) /\ rng lo hi 0 (at_ r j)).
Proof.
  intros Hk Hw Ht Hp Hg0 Hg HL Ha. assert (Hn := pow31 k Hk).
  destruct (gen_B_down_plain k (2 ^ k) (zw k w) (rng lo hi) Hk eq_refl) with
    (body0 := bfly0_red) (body := gs_bfly_red) (p := p) (a := a)
    as (r & E & HLr & HR); auto.
  { apply tower_omega. exact Hw. }
  { apply Ht. }
  { intros. apply zw_0. }
  { intros l h s Hl Hh. apply bfly0_red_gs; [lia|]. apply Hg0; lia. }
  { intros l j h s Hl Hj Hh. assert (1 <= l) by (destruct (Z.eq_dec l 0) as [->|]; [cbn in Hj; lia|lia]). apply gs_bfly_red_gs; [lia | | | apply Hg; lia].
    - apply Hp. apply entry_range; lia.
    - rewrite (omega_table_rev_z k w 8193 p Ht) by lia. apply inv3. }
  exists r. split; [exact E|]. split; [exact HLr|]. intros j Hj.
  destruct (HR j Hj) as [HE HB]. split; [|exact HB]. rewrite HE. clear HE.
  rewrite (form_gs_rev k w (at_ a)) by lia. reflexivity.
Qed.

Lemma nttmul_red_gs_rev2std_spec k w a p lo hi :
  0 <= k <= 31 -> eqQ (w ^ (2 ^ k)) (-1) ->
  mixed_table_rev k w 8193 p -> (forall i, 1 <= i < 2 ^ k -> -6144 <= at_ p i <= 6144) ->
  (forall l, 0 <= l < k -> gs_grow lo hi l) ->
  zlen a = 2 ^ k -> (forall i, 0 <= i < 2 ^ k -> rng lo hi k (at_ a i)) ->
  exists r, nttmul_red_gs_rev2std a (2 ^ k) p = Ok r /\ zlen r = 2 ^ k
    /\ (forall j, 0 <= j < 2 ^ k ->
         eqQ (at_ r j) (w ^ j * NTT (2 ^ k) (w ^ 2) (fun i => at_ a (bitrev k i)) j) /\ rng lo hi 0 (at_ r j)).
Proof.
  intros Hk Hw Ht Hp Hg HL Ha. assert (Hn := pow31 k Hk).
  destruct (gen_B_down_mul k (2 ^ k) (zp k w) (rng lo hi) Hk eq_refl) with
    (body := gs_bfly_red) (p := p) (a := a)
    as (r & E & HLr & HR); auto.
  { apply tower_psi. exact Hw. }
  { exact bfly0_red. }
  { apply Ht. }
  { intros l j h s Hl Hj Hh. apply gs_bfly_red_gs; [lia | | | apply Hg; lia].
    - apply Hp. apply entry_range; lia.
    - rewrite (mixed_table_rev_z k w 8193 p Ht) by lia. apply inv3. }
  exists r. split; [exact E|]. split; [exact HLr|]. intros j Hj.
  destruct (HR j Hj) as [HE HB]. split; [|exact HB]. rewrite HE. clear HE.
  rewrite (form_gs_rev_mul k w (at_ a)) by lia. reflexivity.
Qed.

Lemma ntt_red_gs_std2rev_spec k w a p lo hi :
  0 <= k <= 31 -> (0 < k -> eqQ (w ^ (2 ^ (k - 1))) (-1)) ->
  omega_table k w 8193 p -> (forall i, 1 <= i < 2 ^ k -> -6144 <= at_ p i <= 6144) ->
  (forall l, 0 <= l < k -> gs_grow0 lo hi l) ->
  (forall l, 1 <= l < k -> gs_grow lo hi l) ->
  zlen a = 2 ^ k -> (forall i, 0 <= i < 2 ^ k -> rng lo hi k (at_ a i)) ->
  exists r, ntt_red_gs_std2rev a (2 ^ k) p = Ok r /\ zlen r = 2 ^ k
    /\ (forall j, 0 <= j < 2 ^ k ->
         eqQ (at_ r (bitrev k j)) (NTT (2 ^ k) w (at_ a) j) /\ rng lo hi 0 (at_ r j)).
Proof.
  intros Hk Hw Ht Hp Hg0 Hg HL Ha. assert (Hn := pow31 k Hk).
  destruct (gen_A_down_plain k (2 ^ k) (zw k w) (rng lo hi) Hk eq_refl) with
    (body0 := bfly0_red) (body := gs_bfly_red) (p := p) (a := a)
    as (r & E & HLr & HR); auto.
  { apply tower_omega. exact Hw. }
  { apply Ht. }
  { intros. apply zw_0. }
  { intros l s Hl. apply bfly0_red_gs; [lia|]. apply Hg0; lia. }
  { intros l j s Hl Hj. assert (1 <= l) by (destruct (Z.eq_dec l 0) as [->|]; [cbn in Hj; lia|lia]). apply gs_bfly_red_gs; [lia | | | apply Hg; lia].
    - apply Hp. apply entry_range; lia.
    - rewrite (omega_table_z k w 8193 p Ht) by lia. apply inv3. }
  exists r. split; [exact E|]. split; [exact HLr|]. intros j Hj.
  assert (R := bitrev_range k j ltac:(lia)).
  split; [|apply HR; lia].
  destruct (HR (bitrev k j) R) as [HE _]. rewrite HE. clear HE.
  rewrite (form_gs_std k w (at_ a)) by lia. reflexivity.
Qed.

Lemma nttmul_red_gs_std2rev_spec k w a p lo hi :
  0 <= k <= 31 -> eqQ (w ^ (2 ^ k)) (-1) ->
  mixed_table k w 8193 p -> (forall i, 1 <= i < 2 ^ k -> -6144 <= at_ p i <= 6144) ->
  (forall l, 0 <= l < k -> gs_grow lo hi l) ->
  zlen a = 2 ^ k -> (forall i, 0 <= i < 2 ^ k -> rng lo hi k (at_ a i)) ->
  exists r, nttmul_red_gs_std2rev a (2 ^ k) p = Ok r /\ zlen r = 2 ^ k
    /\ (forall j, 0 <= j < 2 ^ k ->
         eqQ (at_ r (bitrev k j)) (w ^ j * NTT (2 ^ k) (w ^ 2) (at_ a) j) /\ rng lo hi 0 (at_ r j)).
Proof.
  intros Hk Hw Ht Hp Hg HL Ha. assert (Hn := pow31 k Hk).
  destruct (gen_A_down_mul k (2 ^ k) (zp k w) (rng lo hi) Hk eq_refl) with
    (body := gs_bfly_red) (p := p) (a := a)
    as (r & E & HLr & HR); auto.
  { apply tower_psi. exact Hw. }
  { exact bfly0_red. }
  { apply Ht. }
  { intros l j s Hl Hj. apply gs_bfly_red_gs; [lia | | | apply Hg; lia].
    - apply Hp. apply entry_range; lia.
    - rewrite (mixed_table_z k w 8193 p Ht) by lia. apply inv3. }
  exists r. split; [exact E|]. split; [exact HLr|]. intros j Hj.
  assert (R := bitrev_range k j ltac:(lia)).
  split; [|apply HR; lia].
  destruct (HR (bitrev k j) R) as [HE _]. rewrite HE. clear HE.
  rewrite (form_gs_std_mul k w (at_ a)) by lia. reflexivity.
Qed.


