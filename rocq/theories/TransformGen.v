(** The loop nests compute NTTs, for any statements satisfying the butterfly
    specifications. *)

From Coq Require Import ZArith List Lia Setoid Morphisms.
From Verif Require Import CSem Spec Loops ModQ Stages OuterLoops Tower.
Import ListNotations.
Open Scope Z_scope.

(** ** The towers *)

Lemma tower_omega k w : (0 < k -> eqQ (w ^ (2 ^ (k - 1))) (-1)) ->
  tower k (fun l j => w ^ (2 ^ (k - l) * j)).
Proof.
  intros Hw l j Hl Hj. specialize (Hw ltac:(lia)).
  assert (E : 2 ^ (k - l) = 2 ^ (k - (l + 1)) * 2).
  { replace (k - l) with (k - (l + 1) + 1) by lia. rewrite pow2_succ by lia. lia. }
  assert (0 < 2 ^ (k - (l + 1))) by (apply pow2_pos; lia).
  split.
  - rewrite <- Z.pow_mul_r by nia. rewrite E.
    replace (2 ^ (k - (l + 1)) * j * 2) with (2 ^ (k - (l + 1)) * 2 * j) by ring. reflexivity.
  - rewrite Z.mul_add_distr_l.
    rewrite <- Z.pow_add_r by lia. replace (k - (l + 1) + l) with (k - 1) by lia.
    rewrite Z.pow_add_r by (try nia; apply Z.pow_nonneg; lia).
    rewrite Hw. qring.
Qed.

Lemma tower_psi k psi : eqQ (psi ^ (2 ^ k)) (-1) ->
  tower k (fun l j => psi ^ (2 ^ (k - l) * (2 * j + 1))).
Proof.
  intros Hw l j Hl Hj.
  assert (E : 2 ^ (k - l) = 2 ^ (k - (l + 1)) * 2).
  { replace (k - l) with (k - (l + 1) + 1) by lia. rewrite pow2_succ by lia. lia. }
  assert (0 < 2 ^ (k - (l + 1))) by (apply pow2_pos; lia).
  split.
  - rewrite <- Z.pow_mul_r by nia. rewrite E.
    replace (2 ^ (k - (l + 1)) * (2 * j + 1) * 2)
      with (2 ^ (k - (l + 1)) * 2 * (2 * j + 1)) by ring. reflexivity.
  - replace (2 ^ (k - (l + 1)) * (2 * (2 ^ l + j) + 1))
      with (2 ^ (k - (l + 1)) * 2 ^ l * 2 + 2 ^ (k - (l + 1)) * (2 * j + 1)) by ring.
    rewrite <- Z.pow_add_r by lia. replace (k - (l + 1) + l) with (k - 1) by lia.
    replace (2 ^ (k - 1) * 2) with (2 ^ k).
    2:{ replace k with (k - 1 + 1) at 1 by lia. rewrite pow2_succ by lia. ring. }
    rewrite Z.pow_add_r by (try nia; apply Z.pow_nonneg; lia).
    rewrite Hw. qring.
Qed.

Lemma rtower_of k z : tower k z -> rtower k (fun l j => z l (bitrev l j)).
Proof.
  intros Hz l j Hl Hj. rewrite bitrev_even, bitrev_odd by lia.
  apply Hz; [assumption|]. apply bitrev_range. lia.
Qed.

(** ** Generic transforms *)

Lemma ct_pair_z n h z z' B B' s body :
  eqQ z z' -> ct_pair n h z B B' s body -> ct_pair n h z' B B' s body.
Proof.
  intros E H a HL H1 H2 H3 B1 B2. destruct (H a HL H1 H2 H3 B1 B2) as (x & y & E1 & Hx & Hy & Bx).
  exists x, y. rewrite <- E. auto.
Qed.

Lemma gs_pair_z n h z z' B B' s body :
  eqQ z z' -> gs_pair n h z B B' s body -> gs_pair n h z' B B' s body.
Proof.
  intros E H a HL H1 H2 H3 B1 B2. destruct (H a HL H1 H2 H3 B1 B2) as (x & y & E1 & Hx & Hy & Bx).
  exists x, y. rewrite <- E. auto.
Qed.

Section Gen.

Variables (k n : Z) (z : Z -> Z -> Z) (B : Z -> Z -> Prop).
Hypothesis Hk : 0 <= k <= 31.
Hypothesis Hn : n = 2 ^ k.
Hypothesis Hz : tower k z.

Variables (body0 : Z -> Z -> list Z -> res (list Z))
          (body : Z -> Z -> Z -> list Z -> res (list Z)) (p : list Z).
Hypothesis Hp : zlen p = n.

Let n_split l : 0 <= l < k -> n = 2 * 2 ^ l * 2 ^ (k - 1 - l).
Proof. intros. eapply pow_split; eauto. Qed.

Let rA l j c : 0 <= l < k -> 0 <= j < 2 ^ l -> 0 <= c < 2 ^ (k - 1 - l) ->
  posA (2 ^ l) j c + 2 ^ l < n.
Proof.
  intros Hl Hj Hc. assert (H := n_split l Hl).
  assert (0 < 2 ^ l) by (apply pow2_pos; lia).
  assert (0 < 2 ^ (k - 1 - l)) by (apply pow2_pos; lia).
  unfold posA. nia.
Qed.

Let rB l j c : 0 <= l < k -> 0 <= j < 2 ^ l -> 0 <= c < 2 ^ (k - 1 - l) ->
  posB (2 ^ (k - 1 - l)) j c + 2 ^ (k - 1 - l) < n.
Proof.
  intros Hl Hj Hc. assert (H := n_split l Hl).
  assert (0 < 2 ^ l) by (apply pow2_pos; lia).
  assert (0 < 2 ^ (k - 1 - l)) by (apply pow2_pos; lia).
  unfold posB. nia.
Qed.

Variable a : list Z.
Hypothesis Ha : zlen a = n.

Let A := at_ a.

Lemma gen_A_up_plain :
  (forall l, 0 <= l < k -> eqQ 1 (z (l + 1) 0)) ->
  (forall i, 0 <= i < n -> B 0 (at_ a i)) ->
  (forall l s, 0 <= l < k -> ct_pair n (2 ^ l) 1 (B l) (B (l + 1)) s (body0 s (2 ^ l))) ->
  (forall l j s, 0 <= l < k -> 0 < j < 2 ^ l ->
     ct_pair n (2 ^ l) (z (l + 1) j) (B l) (B (l + 1)) s (body (at_ p (2 ^ l + j)) s (2 ^ l))) ->
  exists a',
  cfor (fuel n) 1 (fun t => t <? n) (fun t => u32 (t * 2)) (fun t a =>
    do a <- cfor (fuel n) 0 (fun s => s <? n) (fun s => u32 (s + u32 (t + t)))
              (fun s a => body0 s t a) a;
    cfor (fuel n) 1 (fun j => j <? t) (fun j => u32 (j + 1)) (fun j a =>
      do w <- rd p (u32 (t + j));
      cfor (fuel n) j (fun s => s <? n) (fun s => u32 (s + u32 (t + t)))
        (fun s a => body w s t a) a) a) a = Ok a'
  /\ zlen a' = n
  /\ (forall i, 0 <= i < n ->
       eqQ (at_ a' i) (Sum n (fun r => at_ a r * z k i ^ bitrev k r)) /\ B k (at_ a' i)).
Proof.
  intros H1 HB H0 Hb.
  destruct (nest_A_up_plain k n (fun l i v => eqQ v (FA A z l i) /\ B l v) Hk Hn
              body0 body p a Hp) as (a' & E & HL & HR).
  - intros l c Hl Hc. subst n. apply A_up_step; auto; try lia; try (apply rA; lia).
    apply ct_pair_z with (z := 1); auto.
  - intros l j c Hl Hj Hc. subst n. apply A_up_step; auto; try lia; try (apply rA; lia).
  - split; [exact Ha|]. intros i Hi. split; [|apply HB; lia].
    apply (FA_start k A).
  - exists a'. split; [exact E|]. split; [exact HL|]. intros i Hi.
    destruct (HR i Hi) as [Hv Bv]. split; [|exact Bv].
    rewrite Hv. subst n. rewrite FA_end by lia. reflexivity.
Qed.

Lemma gen_A_v1 :
  (forall l, 0 <= l < k -> eqQ 1 (z (l + 1) 0)) ->
  (forall i, 0 <= i < n -> B 0 (at_ a i)) ->
  (forall l s, 0 <= l < k -> ct_pair n (2 ^ l) 1 (B l) (B (l + 1)) s (body0 s (2 ^ l))) ->
  (forall l j s, 0 <= l < k -> 0 < j < 2 ^ l ->
     ct_pair n (2 ^ l) (z (l + 1) j) (B l) (B (l + 1)) s
             (body (at_ p (j * 2 ^ (k - l))) s (2 ^ l))) ->
  exists a',
  (do '(_, a) <- cfor (fuel n) 1 (fun t => t <? n) (fun t => u32 (t * 2)) (fun t '(l, a) =>
    do a <- cfor (fuel n) 0 (fun s => s <? n) (fun s => u32 (s + u32 (t + t)))
              (fun s a => body0 s t a) a;
    do a <- cfor (fuel n) 1 (fun j => j <? t) (fun j => u32 (j + 1)) (fun j a =>
      do w <- rd p (u32 (j * l));
      cfor (fuel n) j (fun s => s <? n) (fun s => u32 (s + u32 (t + t)))
        (fun s a => body w s t a) a) a;
    Ok (Z.shiftr l 1, a)) (n, a);
  Ok a) = Ok a'
  /\ zlen a' = n
  /\ (forall i, 0 <= i < n ->
       eqQ (at_ a' i) (Sum n (fun r => at_ a r * z k i ^ bitrev k r)) /\ B k (at_ a' i)).
Proof.
  intros H1 HB H0 Hb.
  destruct (nest_A_v1 k n (fun l i v => eqQ v (FA A z l i) /\ B l v) Hk Hn
              body0 body p a Hp) as (a' & E & HL & HR).
  - intros l c Hl Hc. subst n. apply A_up_step; auto; try lia; try (apply rA; lia).
    apply ct_pair_z with (z := 1); auto.
  - intros l j c Hl Hj Hc. subst n. apply A_up_step; auto; try lia; try (apply rA; lia).
  - split; [exact Ha|]. intros i Hi. split; [|apply HB; lia].
    apply (FA_start k A).
  - exists a'. split; [exact E|]. split; [exact HL|]. intros i Hi.
    destruct (HR i Hi) as [Hv Bv]. split; [|exact Bv].
    rewrite Hv. subst n. rewrite FA_end by lia. reflexivity.
Qed.

Lemma gen_A_up_mul :
  (forall i, 0 <= i < n -> B 0 (at_ a i)) ->
  (forall l j s, 0 <= l < k -> 0 <= j < 2 ^ l ->
     ct_pair n (2 ^ l) (z (l + 1) j) (B l) (B (l + 1)) s (body (at_ p (2 ^ l + j)) s (2 ^ l))) ->
  exists a',
  cfor (fuel n) 1 (fun t => t <? n) (fun t => u32 (t * 2)) (fun t a =>
    cfor (fuel n) 0 (fun j => j <? t) (fun j => u32 (j + 1)) (fun j a =>
      do w <- rd p (u32 (t + j));
      cfor (fuel n) j (fun s => s <? n) (fun s => u32 (s + u32 (t + t)))
        (fun s a => body w s t a) a) a) a = Ok a'
  /\ zlen a' = n
  /\ (forall i, 0 <= i < n ->
       eqQ (at_ a' i) (Sum n (fun r => at_ a r * z k i ^ bitrev k r)) /\ B k (at_ a' i)).
Proof.
  intros HB Hb.
  destruct (nest_A_up_mul k n (fun l i v => eqQ v (FA A z l i) /\ B l v) Hk Hn
              body0 body p a Hp) as (a' & E & HL & HR).
  - intros l j c Hl Hj Hc. subst n. apply A_up_step; auto; try lia; try (apply rA; lia).
  - split; [exact Ha|]. intros i Hi. split; [|apply HB; lia].
    apply (FA_start k A).
  - exists a'. split; [exact E|]. split; [exact HL|]. intros i Hi.
    destruct (HR i Hi) as [Hv Bv]. split; [|exact Bv].
    rewrite Hv. subst n. rewrite FA_end by lia. reflexivity.
Qed.

Lemma gen_A_down_plain :
  (forall l, 0 <= l < k -> eqQ 1 (z (l + 1) 0)) ->
  (forall i, 0 <= i < n -> B k (at_ a i)) ->
  (forall l s, 0 <= l < k -> gs_pair n (2 ^ l) 1 (B (l + 1)) (B l) s (body0 s (2 ^ l))) ->
  (forall l j s, 0 <= l < k -> 0 < j < 2 ^ l ->
     gs_pair n (2 ^ l) (z (l + 1) j) (B (l + 1)) (B l) s (body (at_ p (2 ^ l + j)) s (2 ^ l))) ->
  exists a',
  cfor (fuel n) (Z.shiftr n 1) (fun t => 0 <? t) (fun t => Z.shiftr t 1) (fun t a =>
    do a <- cfor (fuel n) 0 (fun s => s <? n) (fun s => u32 (s + u32 (t + t)))
              (fun s a => body0 s t a) a;
    cfor (fuel n) 1 (fun j => j <? t) (fun j => u32 (j + 1)) (fun j a =>
      do w <- rd p (u32 (t + j));
      cfor (fuel n) j (fun s => s <? n) (fun s => u32 (s + u32 (t + t)))
        (fun s a => body w s t a) a) a) a = Ok a'
  /\ zlen a' = n
  /\ (forall i, 0 <= i < n ->
       eqQ (at_ a' i) (Sum n (fun q => at_ a q * z k q ^ bitrev k i)) /\ B 0 (at_ a' i)).
Proof.
  intros H1 HB H0 Hb.
  destruct (nest_A_down_plain k n (fun l i v => eqQ v (HA k A (z k) l i) /\ B l v) Hk Hn
              body0 body p a Hp) as (a' & E & HL & HR).
  - intros l c Hl Hc. subst n. apply A_down_step; auto; try lia; try (apply rA; lia).
    apply gs_pair_z with (z := 1); auto.
  - intros l j c Hl Hj Hc. subst n. apply A_down_step; auto; try lia; try (apply rA; lia).
  - split; [exact Ha|]. intros i Hi. split; [|apply HB; lia].
    apply (HA_start k A). lia.
  - exists a'. split; [exact E|]. split; [exact HL|]. intros i Hi.
    destruct (HR i Hi) as [Hv Bv]. split; [|exact Bv].
    rewrite Hv. subst n. rewrite HA_end by lia. reflexivity.
Qed.

Lemma gen_A_down_mul :
  (forall i, 0 <= i < n -> B k (at_ a i)) ->
  (forall l j s, 0 <= l < k -> 0 <= j < 2 ^ l ->
     gs_pair n (2 ^ l) (z (l + 1) j) (B (l + 1)) (B l) s (body (at_ p (2 ^ l + j)) s (2 ^ l))) ->
  exists a',
  cfor (fuel n) (Z.shiftr n 1) (fun t => 0 <? t) (fun t => Z.shiftr t 1) (fun t a =>
    cfor (fuel n) 0 (fun j => j <? t) (fun j => u32 (j + 1)) (fun j a =>
      do w <- rd p (u32 (t + j));
      cfor (fuel n) j (fun s => s <? n) (fun s => u32 (s + u32 (t + t)))
        (fun s a => body w s t a) a) a) a = Ok a'
  /\ zlen a' = n
  /\ (forall i, 0 <= i < n ->
       eqQ (at_ a' i) (Sum n (fun q => at_ a q * z k q ^ bitrev k i)) /\ B 0 (at_ a' i)).
Proof.
  intros HB Hb.
  destruct (nest_A_down_mul k n (fun l i v => eqQ v (HA k A (z k) l i) /\ B l v) Hk Hn
              body0 body p a Hp) as (a' & E & HL & HR).
  - intros l j c Hl Hj Hc. subst n. apply A_down_step; auto; try lia; try (apply rA; lia).
  - split; [exact Ha|]. intros i Hi. split; [|apply HB; lia].
    apply (HA_start k A). lia.
  - exists a'. split; [exact E|]. split; [exact HL|]. intros i Hi.
    destruct (HR i Hi) as [Hv Bv]. split; [|exact Bv].
    rewrite Hv. subst n. rewrite HA_end by lia. reflexivity.
Qed.

(** Blocked nests use the bit-reversed tower. *)

Let rz l j := z l (bitrev l j).
Let Hrz : rtower k rz.
Proof. apply rtower_of. exact Hz. Qed.
Let rz_even l j : 0 <= l -> rz (l + 1) (2 * j) = z (l + 1) (bitrev l j).
Proof. intros. unfold rz. now rewrite bitrev_even by lia. Qed.

Lemma gen_B_up_plain :
  (forall l, 0 <= l < k -> eqQ 1 (z (l + 1) 0)) ->
  (forall i, 0 <= i < n -> B 0 (at_ a i)) ->
  (forall l h s, 0 <= l < k -> h = 2 ^ (k - 1 - l) ->
     ct_pair n h 1 (B l) (B (l + 1)) s (body0 s h)) ->
  (forall l j h s, 0 <= l < k -> 0 < j < 2 ^ l -> h = 2 ^ (k - 1 - l) ->
     ct_pair n h (z (l + 1) (bitrev l j)) (B l) (B (l + 1)) s (body (at_ p (2 ^ l + j)) s h)) ->
  exists a',
  (do '(_, a) <- cfor (fuel n) 1 (fun t => t <? n) (fun t => u32 (t * 2)) (fun t '(d, a) =>
    let d := Z.shiftr d 1 in
    do a <- cfor (fuel n) 0 (fun s => s <? d) (fun s => u32 (s + 1))
              (fun s a => body0 s d a) a;
    do '(_, a) <- cfor (fuel n) 1 (fun j => j <? t) (fun j => u32 (j + 1)) (fun j '(u, a) =>
      do w <- rd p (u32 (t + j));
      let u := u32 (u + u32 (2 * d)) in
      do a <- cfor (fuel n) u (fun s => s <? u32 (u + d)) (fun s => u32 (s + 1))
                (fun s a => body w s d a) a;
      Ok (u, a)) (0, a);
    Ok (d, a)) (n, a);
  Ok a) = Ok a'
  /\ zlen a' = n
  /\ (forall i, 0 <= i < n ->
       eqQ (at_ a' i) (Sum n (fun q => at_ a q * z k (bitrev k i) ^ q)) /\ B k (at_ a' i)).
Proof.
  intros H1 HB H0 Hb.
  destruct (nest_B_up_plain k n (fun l i v => eqQ v (FB k A rz l i) /\ B l v) Hk Hn
              body0 body p a Hp) as (a' & E & HL & HR).
  - intros l c Hl Hc. subst n. apply B_up_step; auto; try lia; try (apply rB; lia).
    apply ct_pair_z with (z := 1); [|apply H0; auto; lia].
      rewrite rz_even, bitrev_zero by lia. auto.
  - intros l j c Hl Hj Hc. subst n. apply B_up_step; auto; try lia; try (apply rB; lia).
    rewrite rz_even by lia. apply Hb; auto; lia.
  - split; [exact Ha|]. intros i Hi. split; [|apply HB; lia].
    apply (FB_start k A). lia.
  - exists a'. split; [exact E|]. split; [exact HL|]. intros i Hi.
    destruct (HR i Hi) as [Hv Bv]. split; [|exact Bv].
    rewrite Hv. subst n. rewrite FB_end by lia. reflexivity.
Qed.

Lemma gen_B_up_mul :
  (forall i, 0 <= i < n -> B 0 (at_ a i)) ->
  (forall l j h s, 0 <= l < k -> 0 <= j < 2 ^ l -> h = 2 ^ (k - 1 - l) ->
     ct_pair n h (z (l + 1) (bitrev l j)) (B l) (B (l + 1)) s (body (at_ p (2 ^ l + j)) s h)) ->
  exists a',
  (do '(_, a) <- cfor (fuel n) 1 (fun t => t <? n) (fun t => u32 (t * 2)) (fun t '(d, a) =>
    let d := Z.shiftr d 1 in
    do '(_, a) <- cfor (fuel n) 0 (fun j => j <? t) (fun j => u32 (j + 1)) (fun j '(u, a) =>
      do w <- rd p (u32 (t + j));
      do a <- cfor (fuel n) u (fun s => s <? u32 (u + d)) (fun s => u32 (s + 1))
                (fun s a => body w s d a) a;
      Ok (u32 (u + u32 (2 * d)), a)) (0, a);
    Ok (d, a)) (n, a);
  Ok a) = Ok a'
  /\ zlen a' = n
  /\ (forall i, 0 <= i < n ->
       eqQ (at_ a' i) (Sum n (fun q => at_ a q * z k (bitrev k i) ^ q)) /\ B k (at_ a' i)).
Proof.
  intros HB Hb.
  destruct (nest_B_up_mul k n (fun l i v => eqQ v (FB k A rz l i) /\ B l v) Hk Hn
              body0 body p a Hp) as (a' & E & HL & HR).
  - intros l j c Hl Hj Hc. subst n. apply B_up_step; auto; try lia; try (apply rB; lia).
    rewrite rz_even by lia. apply Hb; auto; lia.
  - split; [exact Ha|]. intros i Hi. split; [|apply HB; lia].
    apply (FB_start k A). lia.
  - exists a'. split; [exact E|]. split; [exact HL|]. intros i Hi.
    destruct (HR i Hi) as [Hv Bv]. split; [|exact Bv].
    rewrite Hv. subst n. rewrite FB_end by lia. reflexivity.
Qed.

Lemma gen_B_down_plain :
  (forall l, 0 <= l < k -> eqQ 1 (z (l + 1) 0)) ->
  (forall i, 0 <= i < n -> B k (at_ a i)) ->
  (forall l h s, 0 <= l < k -> h = 2 ^ (k - 1 - l) ->
     gs_pair n h 1 (B (l + 1)) (B l) s (body0 s h)) ->
  (forall l j h s, 0 <= l < k -> 0 < j < 2 ^ l -> h = 2 ^ (k - 1 - l) ->
     gs_pair n h (z (l + 1) (bitrev l j)) (B (l + 1)) (B l) s (body (at_ p (2 ^ l + j)) s h)) ->
  exists a',
  (do '(_, a) <- cfor (fuel n) 1 (fun d => d <? n) (fun d => u32 (d * 2)) (fun d '(t, a) =>
    let t := Z.shiftr t 1 in
    do a <- cfor (fuel n) 0 (fun s => s <? d) (fun s => u32 (s + 1))
              (fun s a => body0 s d a) a;
    do '(_, a) <- cfor (fuel n) 1 (fun j => j <? t) (fun j => u32 (j + 1)) (fun j '(u, a) =>
      do w <- rd p (u32 (t + j));
      do a <- cfor (fuel n) u (fun s => s <? u32 (u + d)) (fun s => u32 (s + 1))
                (fun s a => body w s d a) a;
      Ok (u32 (u + u32 (2 * d)), a)) (u32 (2 * d), a);
    Ok (t, a)) (n, a);
  Ok a) = Ok a'
  /\ zlen a' = n
  /\ (forall i, 0 <= i < n ->
       eqQ (at_ a' i) (Sum n (fun q => at_ a q * z k (bitrev k q) ^ i)) /\ B 0 (at_ a' i)).
Proof.
  intros H1 HB H0 Hb.
  destruct (nest_B_down_plain k n (fun l i v => eqQ v (GB k A (rz k) l i) /\ B l v) Hk Hn
              body0 body p a Hp) as (a' & E & HL & HR).
  - intros l c Hl Hc. subst n. apply B_down_step; auto; try lia; try (apply rB; lia).
    apply gs_pair_z with (z := 1); [|apply H0; auto; lia].
      rewrite rz_even, bitrev_zero by lia. auto.
  - intros l j c Hl Hj Hc. subst n. apply B_down_step; auto; try lia; try (apply rB; lia).
    rewrite rz_even by lia. apply Hb; auto; lia.
  - split; [exact Ha|]. intros i Hi. split; [|apply HB; lia].
    apply (GB_start k A).
  - exists a'. split; [exact E|]. split; [exact HL|]. intros i Hi.
    destruct (HR i Hi) as [Hv Bv]. split; [|exact Bv].
    rewrite Hv. subst n. rewrite GB_end by lia. reflexivity.
Qed.

Lemma gen_B_down_mul :
  (forall i, 0 <= i < n -> B k (at_ a i)) ->
  (forall l j h s, 0 <= l < k -> 0 <= j < 2 ^ l -> h = 2 ^ (k - 1 - l) ->
     gs_pair n h (z (l + 1) (bitrev l j)) (B (l + 1)) (B l) s (body (at_ p (2 ^ l + j)) s h)) ->
  exists a',
  (do '(_, a) <- cfor (fuel n) 1 (fun d => d <? n) (fun d => u32 (d * 2)) (fun d '(t, a) =>
    let t := Z.shiftr t 1 in
    do '(_, a) <- cfor (fuel n) 0 (fun j => j <? t) (fun j => u32 (j + 1)) (fun j '(u, a) =>
      do w <- rd p (u32 (t + j));
      do a <- cfor (fuel n) u (fun s => s <? u32 (u + d)) (fun s => u32 (s + 1))
                (fun s a => body w s d a) a;
      Ok (u32 (u + u32 (2 * d)), a)) (0, a);
    Ok (t, a)) (n, a);
  Ok a) = Ok a'
  /\ zlen a' = n
  /\ (forall i, 0 <= i < n ->
       eqQ (at_ a' i) (Sum n (fun q => at_ a q * z k (bitrev k q) ^ i)) /\ B 0 (at_ a' i)).
Proof.
  intros HB Hb.
  destruct (nest_B_down_mul k n (fun l i v => eqQ v (GB k A (rz k) l i) /\ B l v) Hk Hn
              body0 body p a Hp) as (a' & E & HL & HR).
  - intros l j c Hl Hj Hc. subst n. apply B_down_step; auto; try lia; try (apply rB; lia).
    rewrite rz_even by lia. apply Hb; auto; lia.
  - split; [exact Ha|]. intros i Hi. split; [|apply HB; lia].
    apply (GB_start k A).
  - exists a'. split; [exact E|]. split; [exact HL|]. intros i Hi.
    destruct (HR i Hi) as [Hv Bv]. split; [|exact Bv].
    rewrite Hv. subst n. rewrite GB_end by lia. reflexivity.
Qed.

End Gen.
