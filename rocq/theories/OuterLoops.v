(** The loops over the rounds, and the eight loop nests of the transforms,
    generic in the statements executed for a pair.  [P l i v] is the property
    of the value [v] at index [i] at level [l] ([n = 2^k]). *)

From Coq Require Import ZArith List Bool Lia.
From Verif Require Import CSem Spec Loops Stages.
Import ListNotations.
Open Scope Z_scope.

Section Outer.

Variables (k n : Z) (P : Z -> Z -> Z -> Prop).
Hypothesis Hk : 0 <= k <= 31.
Hypothesis Hn : n = 2 ^ k.

Definition At (l : Z) (a : list Z) : Prop :=
  zlen a = n /\ forall i, 0 <= i < n -> P l i (at_ a i).

Lemma pow_split l : 0 <= l < k -> n = 2 * 2 ^ l * 2 ^ (k - 1 - l).
Proof.
  intros. rewrite Hn. replace k with (1 + l + (k - 1 - l)) at 1 by lia.
  rewrite !Z.pow_add_r by lia. reflexivity.
Qed.

Lemma n_le : n <= 2147483648.
Proof. rewrite Hn. change 2147483648 with (2 ^ 31). apply Z.pow_le_mono_r; lia. Qed.

Lemma k_fuel : (Z.to_nat k < fuel n)%nat.
Proof.
  unfold fuel. assert (k < n); [|lia]. rewrite Hn. apply Z.pow_gt_lin_r; lia.
Qed.

Lemma pow_lt_n l : 0 <= l < k -> 2 ^ l < n.
Proof. intros. rewrite Hn. apply Z.pow_lt_mono_r; lia. Qed.

Lemma pow_next l : 0 <= l < k -> u32 (2 ^ l * 2) = 2 ^ (l + 1).
Proof.
  intros. rewrite Z.pow_add_r, Z.pow_1_r by lia. apply u32_small.
  assert (H1 := pow_split l H). assert (H2 := n_le).
  assert (0 < 2 ^ l) by (apply Z.pow_pos_nonneg; lia).
  assert (0 < 2 ^ (k - 1 - l)) by (apply Z.pow_pos_nonneg; lia). nia.
Qed.

Lemma pow_half c : Z.shiftr (2 ^ c) 1 = 2 ^ (c - 1).
Proof.
  destruct (Z.lt_trichotomy c 0) as [H|[->|H]].
  - rewrite !Z.pow_neg_r by lia. reflexivity.
  - reflexivity.
  - rewrite Z.shiftr_div_pow2 by lia. rewrite Z.pow_sub_r by lia. reflexivity.
Qed.

Lemma up_rounds (body : Z -> list Z -> res (list Z)) a :
  (forall l a, 0 <= l < k -> At l a -> exists a', body (2 ^ l) a = Ok a' /\ At (l + 1) a') ->
  At 0 a ->
  exists a', cfor (fuel n) 1 (fun t => t <? n) (fun t => u32 (t * 2)) body a = Ok a'
             /\ At k a'.
Proof.
  intros Hb Ha.
  apply (cfor_count At k (fun l => 2 ^ l)); auto using k_fuel; try lia.
  - intros l Hl. apply Z.ltb_lt, pow_lt_n; lia.
  - intros l Hl. apply pow_next; lia.
Qed.

Lemma down_rounds (body : Z -> list Z -> res (list Z)) a :
  (forall l a, 0 <= l < k -> At (l + 1) a -> exists a', body (2 ^ l) a = Ok a' /\ At l a') ->
  At k a ->
  exists a', cfor (fuel n) (Z.shiftr n 1) (fun t => 0 <? t) (fun t => Z.shiftr t 1) body a
             = Ok a' /\ At 0 a'.
Proof.
  intros Hb Ha.
  destruct (cfor_count (fun c => At (k - c)) k (fun c => 2 ^ (k - 1 - c))
      (fun t => 0 <? t) (fun t => Z.shiftr t 1) body) with (f := fuel n)
      (i0 := Z.shiftr n 1) (st := a) as (r & Hr & HA); auto using k_fuel; try lia.
  - replace (k - 1 - k) with (-1) by lia. reflexivity.
  - intros c Hc. rewrite pow_half. f_equal. lia.
  - intros c b Hc HA.
    replace (k - c) with ((k - 1 - c) + 1) in HA by lia.
    destruct (Hb (k - 1 - c) b ltac:(lia) HA) as (b' & Hb' & HA').
    exists b'. split; [assumption|]. now replace (k - (c + 1)) with (k - 1 - c) by lia.
  - rewrite Hn, pow_half. f_equal. lia.
  - now replace (k - 0) with k by lia.
  - exists r. split; [assumption|]. now replace (k - k) with 0 in HA by lia.
Qed.

(** The state also holds the halved distance. *)
Lemma up_rounds_d (body : Z -> Z * list Z -> res (Z * list Z)) a :
  (forall l a, 0 <= l < k -> At l a ->
     exists a', body (2 ^ l) (2 ^ (k - l), a) = Ok (2 ^ (k - 1 - l), a') /\ At (l + 1) a') ->
  At 0 a ->
  exists a', (do '(_, a) <- cfor (fuel n) 1 (fun t => t <? n) (fun t => u32 (t * 2)) body (n, a);
              Ok a) = Ok a'
             /\ At k a'.
Proof.
  intros Hb Ha.
  destruct (cfor_count (fun l '(d, a) => d = 2 ^ (k - l) /\ At l a) k (fun l => 2 ^ l)
      (fun t => t <? n) (fun t => u32 (t * 2)) body) with (f := fuel n)
      (i0 := 1) (st := (n, a)) as ([d r] & Hr & _ & HA); auto using k_fuel; try lia.
  - intros l Hl. apply Z.ltb_lt, pow_lt_n; lia.
  - intros l Hl. apply pow_next; lia.
  - intros l [d b] Hl [-> HA]. destruct (Hb l b Hl HA) as (b' & Hb' & HA').
    eexists. split; [exact Hb'|]. cbv beta iota. split; [f_equal; lia|assumption].
  - split; [|assumption]. rewrite Hn. f_equal. lia.
  - exists r. rewrite Hr. split; [reflexivity|assumption].
Qed.

Lemma down_rounds_d (body : Z -> Z * list Z -> res (Z * list Z)) a :
  (forall l a, 0 <= l < k -> At (l + 1) a ->
     exists a', body (2 ^ (k - 1 - l)) (2 ^ (l + 1), a) = Ok (2 ^ l, a') /\ At l a') ->
  At k a ->
  exists a', (do '(_, a) <- cfor (fuel n) 1 (fun t => t <? n) (fun t => u32 (t * 2)) body (n, a);
              Ok a) = Ok a'
             /\ At 0 a'.
Proof.
  intros Hb Ha.
  destruct (cfor_count (fun c '(d, a) => d = 2 ^ (k - c) /\ At (k - c) a) k (fun l => 2 ^ l)
      (fun t => t <? n) (fun t => u32 (t * 2)) body) with (f := fuel n)
      (i0 := 1) (st := (n, a)) as ([d r] & Hr & _ & HA); auto using k_fuel; try lia.
  - intros l Hl. apply Z.ltb_lt, pow_lt_n; lia.
  - intros l Hl. apply pow_next; lia.
  - intros c [d b] Hc [-> HA].
    replace (k - c) with ((k - 1 - c) + 1) in * by lia.
    destruct (Hb (k - 1 - c) b ltac:(lia) HA) as (b' & Hb' & HA').
    replace (k - 1 - (k - 1 - c)) with c in Hb' by lia.
    eexists. split; [exact Hb'|]. cbv beta iota.
    replace (k - (c + 1)) with (k - 1 - c) by lia. auto.
  - split; [rewrite Hn; f_equal; lia|]. now replace (k - 0) with k by lia.
  - exists r. rewrite Hr. split; [reflexivity|]. now replace (k - k) with 0 in HA by lia.
Qed.

(** ** The loop nests *)

Variables (body0 : Z -> Z -> list Z -> res (list Z))
          (body : Z -> Z -> Z -> list Z -> res (list Z)) (p : list Z).

Ltac nest_facts l :=
  assert (Hsp := pow_split l ltac:(lia)); assert (Hle := n_le);
  assert (0 < 2 ^ l) by (apply Z.pow_pos_nonneg; lia);
  assert (0 < 2 ^ (k - 1 - l)) by (apply Z.pow_pos_nonneg; lia);
  assert (2 * 2 ^ l <= n) by nia.

(** Shape A, rounds t = 1, 2, 4, ... (ct_rev2std). *)

Lemma nest_A_up_plain a :
  zlen p = n ->
  (forall l c, 0 <= l < k -> 0 <= c < 2 ^ (k - 1 - l) ->
     bspec n (2 ^ l) (P l) (P (l + 1)) (posA (2 ^ l) 0 c) (body0 (posA (2 ^ l) 0 c) (2 ^ l))) ->
  (forall l j c, 0 <= l < k -> 0 < j < 2 ^ l -> 0 <= c < 2 ^ (k - 1 - l) ->
     bspec n (2 ^ l) (P l) (P (l + 1)) (posA (2 ^ l) j c)
           (body (at_ p (2 ^ l + j)) (posA (2 ^ l) j c) (2 ^ l))) ->
  At 0 a ->
  exists a',
  cfor (fuel n) 1 (fun t => t <? n) (fun t => u32 (t * 2)) (fun t a =>
    do a <- cfor (fuel n) 0 (fun s => s <? n) (fun s => u32 (s + u32 (t + t)))
              (fun s a => body0 s t a) a;
    cfor (fuel n) 1 (fun j => j <? t) (fun j => u32 (j + 1)) (fun j a =>
      do w <- rd p (u32 (t + j));
      cfor (fuel n) j (fun s => s <? n) (fun s => u32 (s + u32 (t + t)))
        (fun s a => body w s t a) a) a) a = Ok a' /\ At k a'.
Proof.
  intros Hp H0 H1 Ha. apply up_rounds; [|assumption].
  intros l b Hl [HL HP]. nest_facts l.
  apply (stageA_plain n (2 ^ l) (2 ^ (k - 1 - l)) (P l) (P (l + 1))) with
    (body0 := fun s => body0 s (2 ^ l)) (body := fun w s => body w s (2 ^ l))
    (tw := fun j => u32 (2 ^ l + j)) (w := fun j => at_ p (2 ^ l + j)); auto.
  intros j Hj. rewrite u32_small by lia. apply rd_ok. lia.
Qed.

Lemma nest_A_up_mul a :
  zlen p = n ->
  (forall l j c, 0 <= l < k -> 0 <= j < 2 ^ l -> 0 <= c < 2 ^ (k - 1 - l) ->
     bspec n (2 ^ l) (P l) (P (l + 1)) (posA (2 ^ l) j c)
           (body (at_ p (2 ^ l + j)) (posA (2 ^ l) j c) (2 ^ l))) ->
  At 0 a ->
  exists a',
  cfor (fuel n) 1 (fun t => t <? n) (fun t => u32 (t * 2)) (fun t a =>
    cfor (fuel n) 0 (fun j => j <? t) (fun j => u32 (j + 1)) (fun j a =>
      do w <- rd p (u32 (t + j));
      cfor (fuel n) j (fun s => s <? n) (fun s => u32 (s + u32 (t + t)))
        (fun s a => body w s t a) a) a) a = Ok a' /\ At k a'.
Proof.
  intros Hp H1 Ha. apply up_rounds; [|assumption].
  intros l b Hl [HL HP]. nest_facts l.
  apply (stageA_mul n (2 ^ l) (2 ^ (k - 1 - l)) (P l) (P (l + 1))) with
    (body := fun w s => body w s (2 ^ l)); auto.
Qed.

(** Shape A, rounds t = n/2, ..., 2, 1 (gs_std2rev). *)

Lemma nest_A_down_plain a :
  zlen p = n ->
  (forall l c, 0 <= l < k -> 0 <= c < 2 ^ (k - 1 - l) ->
     bspec n (2 ^ l) (P (l + 1)) (P l) (posA (2 ^ l) 0 c) (body0 (posA (2 ^ l) 0 c) (2 ^ l))) ->
  (forall l j c, 0 <= l < k -> 0 < j < 2 ^ l -> 0 <= c < 2 ^ (k - 1 - l) ->
     bspec n (2 ^ l) (P (l + 1)) (P l) (posA (2 ^ l) j c)
           (body (at_ p (2 ^ l + j)) (posA (2 ^ l) j c) (2 ^ l))) ->
  At k a ->
  exists a',
  cfor (fuel n) (Z.shiftr n 1) (fun t => 0 <? t) (fun t => Z.shiftr t 1) (fun t a =>
    do a <- cfor (fuel n) 0 (fun s => s <? n) (fun s => u32 (s + u32 (t + t)))
              (fun s a => body0 s t a) a;
    cfor (fuel n) 1 (fun j => j <? t) (fun j => u32 (j + 1)) (fun j a =>
      do w <- rd p (u32 (t + j));
      cfor (fuel n) j (fun s => s <? n) (fun s => u32 (s + u32 (t + t)))
        (fun s a => body w s t a) a) a) a = Ok a' /\ At 0 a'.
Proof.
  intros Hp H0 H1 Ha. apply down_rounds; [|assumption].
  intros l b Hl [HL HP]. nest_facts l.
  apply (stageA_plain n (2 ^ l) (2 ^ (k - 1 - l)) (P (l + 1)) (P l)) with
    (body0 := fun s => body0 s (2 ^ l)) (body := fun w s => body w s (2 ^ l))
    (tw := fun j => u32 (2 ^ l + j)) (w := fun j => at_ p (2 ^ l + j)); auto.
  intros j Hj. rewrite u32_small by lia. apply rd_ok. lia.
Qed.

Lemma nest_A_down_mul a :
  zlen p = n ->
  (forall l j c, 0 <= l < k -> 0 <= j < 2 ^ l -> 0 <= c < 2 ^ (k - 1 - l) ->
     bspec n (2 ^ l) (P (l + 1)) (P l) (posA (2 ^ l) j c)
           (body (at_ p (2 ^ l + j)) (posA (2 ^ l) j c) (2 ^ l))) ->
  At k a ->
  exists a',
  cfor (fuel n) (Z.shiftr n 1) (fun t => 0 <? t) (fun t => Z.shiftr t 1) (fun t a =>
    cfor (fuel n) 0 (fun j => j <? t) (fun j => u32 (j + 1)) (fun j a =>
      do w <- rd p (u32 (t + j));
      cfor (fuel n) j (fun s => s <? n) (fun s => u32 (s + u32 (t + t)))
        (fun s a => body w s t a) a) a) a = Ok a' /\ At 0 a'.
Proof.
  intros Hp H1 Ha. apply down_rounds; [|assumption].
  intros l b Hl [HL HP]. nest_facts l.
  apply (stageA_mul n (2 ^ l) (2 ^ (k - 1 - l)) (P (l + 1)) (P l)) with
    (body := fun w s => body w s (2 ^ l)); auto.
Qed.

(** Shape A with the table of powers indexed by [j * l] (ntt_ct_rev2std_v1). *)

Lemma nest_A_v1 a :
  zlen p = n ->
  (forall l c, 0 <= l < k -> 0 <= c < 2 ^ (k - 1 - l) ->
     bspec n (2 ^ l) (P l) (P (l + 1)) (posA (2 ^ l) 0 c) (body0 (posA (2 ^ l) 0 c) (2 ^ l))) ->
  (forall l j c, 0 <= l < k -> 0 < j < 2 ^ l -> 0 <= c < 2 ^ (k - 1 - l) ->
     bspec n (2 ^ l) (P l) (P (l + 1)) (posA (2 ^ l) j c)
           (body (at_ p (j * 2 ^ (k - l))) (posA (2 ^ l) j c) (2 ^ l))) ->
  At 0 a ->
  exists a',
  (do '(_, a) <- cfor (fuel n) 1 (fun t => t <? n) (fun t => u32 (t * 2)) (fun t '(l, a) =>
    do a <- cfor (fuel n) 0 (fun s => s <? n) (fun s => u32 (s + u32 (t + t)))
              (fun s a => body0 s t a) a;
    do a <- cfor (fuel n) 1 (fun j => j <? t) (fun j => u32 (j + 1)) (fun j a =>
      do w <- rd p (u32 (j * l));
      cfor (fuel n) j (fun s => s <? n) (fun s => u32 (s + u32 (t + t)))
        (fun s a => body w s t a) a) a;
    Ok (Z.shiftr l 1, a)) (n, a);
  Ok a) = Ok a' /\ At k a'.
Proof.
  intros Hp H0 H1 Ha. apply up_rounds_d; [|assumption].
  intros l b Hl [HL HP]. nest_facts l.
  destruct (stageA_plain n (2 ^ l) (2 ^ (k - 1 - l)) (P l) (P (l + 1))) with
    (body0 := fun s => body0 s (2 ^ l)) (body := fun w s => body w s (2 ^ l))
    (tw := fun j => u32 (j * 2 ^ (k - l))) (w := fun j => at_ p (j * 2 ^ (k - l)))
    (p := p) (a := b) as (r & Hr & HA); auto.
  { intros j Hj.
    assert (j * 2 ^ (k - l) < n).
    { replace (k - l) with (1 + (k - 1 - l)) by lia. rewrite Z.pow_add_r by lia. nia. }
    assert (0 < 2 ^ (k - l)) by (apply Z.pow_pos_nonneg; lia).
    rewrite u32_small by nia. apply rd_ok. nia. }
  exists r. split; [|exact HA].
  cbv beta iota in Hr |- *.
  destruct (cfor (fuel n) 0 _ _ (fun s a => body0 s (2 ^ l) a) b) as [b1|e]; cbn [bind] in Hr |- *;
    [|discriminate].
  rewrite Hr. cbn [bind]. rewrite pow_half. now replace (k - l - 1) with (k - 1 - l) by lia.
Qed.

(** Shape B, rounds t = 1, 2, 4, ... (ct_std2rev). *)

Lemma nest_B_up_plain a :
  zlen p = n ->
  (forall l c, 0 <= l < k -> 0 <= c < 2 ^ (k - 1 - l) ->
     bspec n (2 ^ (k - 1 - l)) (P l) (P (l + 1)) (posB (2 ^ (k - 1 - l)) 0 c)
           (body0 (posB (2 ^ (k - 1 - l)) 0 c) (2 ^ (k - 1 - l)))) ->
  (forall l j c, 0 <= l < k -> 0 < j < 2 ^ l -> 0 <= c < 2 ^ (k - 1 - l) ->
     bspec n (2 ^ (k - 1 - l)) (P l) (P (l + 1)) (posB (2 ^ (k - 1 - l)) j c)
           (body (at_ p (2 ^ l + j)) (posB (2 ^ (k - 1 - l)) j c) (2 ^ (k - 1 - l)))) ->
  At 0 a ->
  exists a',
  (do '(_, a) <- cfor (fuel n) 1 (fun t => t <? n) (fun t => u32 (t * 2)) (fun t '(d, a) =>
    let d := Z.shiftr d 1 in
    do a <- cfor (fuel n) 0 (fun s => s <? d) (fun s => u32 (s + 1))
              (fun s a => body0 s d a) a;
    do '(_, a) <- cfor (fuel n) 1 (fun j => j <? t) (fun j => u32 (j + 1)) (fun j '(u, a) =>
      do w <- rd p (u32 (t + j));
      let u := u32 (u + u32 (2 * d)) in
      do a <- cfor (fuel n) u (fun s => s <? u32 (u + d)) (fun s => u32 (s + 1))
                (fun s a => body w s d a) a;
      Ok (u, a)) (0, a);
    Ok (d, a)) (n, a);
  Ok a) = Ok a' /\ At k a'.
Proof.
  intros Hp H0 H1 Ha. apply up_rounds_d; [|assumption].
  intros l b Hl [HL HP]. nest_facts l.
  destruct (stageB_plain_ct n (2 ^ l) (2 ^ (k - 1 - l)) (P l) (P (l + 1))) with
    (body0 := fun s => body0 s (2 ^ (k - 1 - l)))
    (body := fun w s => body w s (2 ^ (k - 1 - l)))
    (p := p) (a := b) as (u & r & Hr & HA); auto.
  exists r. split; [|exact HA].
  cbv beta iota zeta in Hr |- *. rewrite pow_half. replace (k - l - 1) with (k - 1 - l) by lia.
  set (d := 2 ^ (k - 1 - l)) in *.
  destruct (cfor (fuel n) 0 _ _ (fun s a => body0 s d a) b) as [b1|e]; cbn [bind] in Hr |- *;
    [|discriminate].
  rewrite Hr. reflexivity.
Qed.

Lemma nest_B_up_mul a :
  zlen p = n ->
  (forall l j c, 0 <= l < k -> 0 <= j < 2 ^ l -> 0 <= c < 2 ^ (k - 1 - l) ->
     bspec n (2 ^ (k - 1 - l)) (P l) (P (l + 1)) (posB (2 ^ (k - 1 - l)) j c)
           (body (at_ p (2 ^ l + j)) (posB (2 ^ (k - 1 - l)) j c) (2 ^ (k - 1 - l)))) ->
  At 0 a ->
  exists a',
  (do '(_, a) <- cfor (fuel n) 1 (fun t => t <? n) (fun t => u32 (t * 2)) (fun t '(d, a) =>
    let d := Z.shiftr d 1 in
    do '(_, a) <- cfor (fuel n) 0 (fun j => j <? t) (fun j => u32 (j + 1)) (fun j '(u, a) =>
      do w <- rd p (u32 (t + j));
      do a <- cfor (fuel n) u (fun s => s <? u32 (u + d)) (fun s => u32 (s + 1))
                (fun s a => body w s d a) a;
      Ok (u32 (u + u32 (2 * d)), a)) (0, a);
    Ok (d, a)) (n, a);
  Ok a) = Ok a' /\ At k a'.
Proof.
  intros Hp H1 Ha. apply up_rounds_d; [|assumption].
  intros l b Hl [HL HP]. nest_facts l.
  destruct (stageB_mul n (2 ^ l) (2 ^ (k - 1 - l)) (P l) (P (l + 1))) with
    (body := fun w s => body w s (2 ^ (k - 1 - l)))
    (p := p) (a := b) as (u & r & Hr & HA); auto.
  exists r. split; [|exact HA].
  cbv beta iota zeta in Hr |- *. rewrite pow_half. replace (k - l - 1) with (k - 1 - l) by lia.
  rewrite Hr. reflexivity.
Qed.

(** Shape B, rounds d = 1, 2, 4, ... (gs_rev2std). *)

Lemma nest_B_down_plain a :
  zlen p = n ->
  (forall l c, 0 <= l < k -> 0 <= c < 2 ^ (k - 1 - l) ->
     bspec n (2 ^ (k - 1 - l)) (P (l + 1)) (P l) (posB (2 ^ (k - 1 - l)) 0 c)
           (body0 (posB (2 ^ (k - 1 - l)) 0 c) (2 ^ (k - 1 - l)))) ->
  (forall l j c, 0 <= l < k -> 0 < j < 2 ^ l -> 0 <= c < 2 ^ (k - 1 - l) ->
     bspec n (2 ^ (k - 1 - l)) (P (l + 1)) (P l) (posB (2 ^ (k - 1 - l)) j c)
           (body (at_ p (2 ^ l + j)) (posB (2 ^ (k - 1 - l)) j c) (2 ^ (k - 1 - l)))) ->
  At k a ->
  exists a',
  (do '(_, a) <- cfor (fuel n) 1 (fun d => d <? n) (fun d => u32 (d * 2)) (fun d '(t, a) =>
    let t := Z.shiftr t 1 in
    do a <- cfor (fuel n) 0 (fun s => s <? d) (fun s => u32 (s + 1))
              (fun s a => body0 s d a) a;
    do '(_, a) <- cfor (fuel n) 1 (fun j => j <? t) (fun j => u32 (j + 1)) (fun j '(u, a) =>
      do w <- rd p (u32 (t + j));
      do a <- cfor (fuel n) u (fun s => s <? u32 (u + d)) (fun s => u32 (s + 1))
                (fun s a => body w s d a) a;
      Ok (u32 (u + u32 (2 * d)), a)) (u32 (2 * d), a);
    Ok (t, a)) (n, a);
  Ok a) = Ok a' /\ At 0 a'.
Proof.
  intros Hp H0 H1 Ha. apply down_rounds_d; [|assumption].
  intros l b Hl [HL HP]. nest_facts l.
  destruct (stageB_plain_gs n (2 ^ l) (2 ^ (k - 1 - l)) (P (l + 1)) (P l)) with
    (body0 := fun s => body0 s (2 ^ (k - 1 - l)))
    (body := fun w s => body w s (2 ^ (k - 1 - l)))
    (p := p) (a := b) as (u & r & Hr & HA); auto.
  exists r. split; [|exact HA].
  cbv beta iota zeta in Hr |- *. rewrite pow_half. replace (l + 1 - 1) with l by lia.
  set (d := 2 ^ (k - 1 - l)) in *.
  destruct (cfor (fuel n) 0 _ _ (fun s a => body0 s d a) b) as [b1|e]; cbn [bind] in Hr |- *;
    [|discriminate].
  rewrite Hr. reflexivity.
Qed.

Lemma nest_B_down_mul a :
  zlen p = n ->
  (forall l j c, 0 <= l < k -> 0 <= j < 2 ^ l -> 0 <= c < 2 ^ (k - 1 - l) ->
     bspec n (2 ^ (k - 1 - l)) (P (l + 1)) (P l) (posB (2 ^ (k - 1 - l)) j c)
           (body (at_ p (2 ^ l + j)) (posB (2 ^ (k - 1 - l)) j c) (2 ^ (k - 1 - l)))) ->
  At k a ->
  exists a',
  (do '(_, a) <- cfor (fuel n) 1 (fun d => d <? n) (fun d => u32 (d * 2)) (fun d '(t, a) =>
    let t := Z.shiftr t 1 in
    do '(_, a) <- cfor (fuel n) 0 (fun j => j <? t) (fun j => u32 (j + 1)) (fun j '(u, a) =>
      do w <- rd p (u32 (t + j));
      do a <- cfor (fuel n) u (fun s => s <? u32 (u + d)) (fun s => u32 (s + 1))
                (fun s a => body w s d a) a;
      Ok (u32 (u + u32 (2 * d)), a)) (0, a);
    Ok (t, a)) (n, a);
  Ok a) = Ok a' /\ At 0 a'.
Proof.
  intros Hp H1 Ha. apply down_rounds_d; [|assumption].
  intros l b Hl [HL HP]. nest_facts l.
  destruct (stageB_mul n (2 ^ l) (2 ^ (k - 1 - l)) (P (l + 1)) (P l)) with
    (body := fun w s => body w s (2 ^ (k - 1 - l)))
    (p := p) (a := b) as (u & r & Hr & HA); auto.
  exists r. split; [|exact HA].
  cbv beta iota zeta in Hr |- *. rewrite pow_half. replace (l + 1 - 1) with l by lia.
  rewrite Hr. reflexivity.
Qed.

End Outer.
