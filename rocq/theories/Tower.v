(** Partial transforms: the values held at each level of the four loop nests,
    for an abstract tower of evaluation points, and the step lemmas saying that
    one butterfly moves a pair from one level to the next. *)

From Coq Require Import ZArith List Lia Setoid Morphisms.
From Verif Require Import CSem Spec Loops ModQ Stages.
Import ListNotations.
Open Scope Z_scope.

(** ** Butterflies *)

Definition ct_pair (n h z : Z) (B B' : Z -> Prop) (s : Z)
           (body : list Z -> res (list Z)) : Prop :=
  forall a, zlen a = n -> 0 <= s -> 0 < h -> s + h < n ->
    B (at_ a s) -> B (at_ a (s + h)) ->
    exists x y, body a = Ok (aset (aset a (s + h) y) s x)
      /\ eqQ x (at_ a s + z * at_ a (s + h))
      /\ eqQ y (at_ a s - z * at_ a (s + h))
      /\ B' x /\ B' y.

Definition gs_pair (n h z : Z) (B B' : Z -> Prop) (s : Z)
           (body : list Z -> res (list Z)) : Prop :=
  forall a, zlen a = n -> 0 <= s -> 0 < h -> s + h < n ->
    B (at_ a s) -> B (at_ a (s + h)) ->
    exists x y, body a = Ok (aset (aset a (s + h) y) s x)
      /\ eqQ x (at_ a s + at_ a (s + h))
      /\ eqQ y (z * (at_ a s - at_ a (s + h)))
      /\ B' x /\ B' y.

(** ** Index arithmetic *)

Lemma divmod_at t q r : 0 <= r < t -> (q * t + r) / t = q /\ (q * t + r) mod t = r.
Proof.
  intros H. split.
  - rewrite Z.add_comm, Z.div_add by lia. rewrite Z.div_small by lia. lia.
  - rewrite Z.add_comm, Z.mod_add by lia. apply Z.mod_small. lia.
Qed.

Lemma div_at t q r x : 0 <= r < t -> x = q * t + r -> x / t = q.
Proof. intros H ->. now apply divmod_at. Qed.
Lemma mod_at t q r x : 0 <= r < t -> x = q * t + r -> x mod t = r.
Proof. intros H ->. now apply divmod_at. Qed.

Section Levels.

Variables (k : Z) (A : Z -> Z).
Hypothesis Hk : 0 <= k.
Let n := 2 ^ k.

(** ** Strided loop nest, upwards (ct_rev2std) *)

(** Tower of evaluation points: level [l+1] holds the two square roots of
    each point of level [l]. *)
Definition tower (z : Z -> Z -> Z) : Prop :=
  forall l j, 0 <= l < k -> 0 <= j < 2 ^ l ->
    eqQ (z (l + 1) j ^ 2) (z l j) /\ eqQ (z (l + 1) (2 ^ l + j)) (- z (l + 1) j).

Definition FA (z : Z -> Z -> Z) (l i : Z) : Z :=
  Sum (2 ^ l) (fun r => A (i / 2 ^ l * 2 ^ l + r) * z l (i mod 2 ^ l) ^ bitrev l r).

Lemma FA_start z i : eqQ (A i) (FA z 0 i).
Proof.
  unfold FA. change (2 ^ 0) with 1. rewrite Sum_1, bitrev_0, Z.div_1_r.
  rewrite Z.pow_0_r. replace (i * 1 + 0) with i by lia. qring.
Qed.

Lemma FA_end z i : 0 <= i < n ->
  FA z k i = Sum n (fun r => A r * z k i ^ bitrev k r).
Proof.
  intros Hi. unfold FA. fold n. rewrite Z.div_small, Z.mod_small by lia. reflexivity.
Qed.

Section A_up.
Variables (z : Z -> Z -> Z) (l j c : Z).
Hypothesis Hz : tower z.
Hypothesis Hl : 0 <= l < k.
Hypothesis Hj : 0 <= j < 2 ^ l.
Hypothesis Hc : 0 <= c.
Let t := 2 ^ l.
Let s := posA t j c.

Lemma FA_split x zz : 
  x / (2 * t) = c -> z (l + 1) (x mod (2 * t)) = zz -> eqQ (zz ^ 2) (z l j) ->
  eqQ (FA z (l + 1) x) (FA z l s + zz * FA z l (s + t)).
Proof.
  intros Hx Hzz Hsq.
  assert (Ht : 0 < t) by (apply pow2_pos; lia).
  unfold FA. rewrite pow2_succ by lia. fold t. rewrite Hx, Hzz.
  assert (E1 : s / t = 2 * c) by (apply (div_at t (2 * c) j); [lia|unfold s, posA; ring]).
  assert (E2 : s mod t = j) by (apply (mod_at t (2 * c) j); [lia|unfold s, posA; ring]).
  assert (E3 : (s + t) / t = 2 * c + 1)
    by (apply (div_at t (2 * c + 1) j); [lia|unfold s, posA; ring]).
  assert (E4 : (s + t) mod t = j)
    by (apply (mod_at t (2 * c + 1) j); [lia|unfold s, posA; ring]).
  rewrite E1, E2, E3, E4.
  rewrite Sum_double by lia. rewrite <- Sum_mul_l.
  apply eqQ_add; apply Sum_extQ; intros r Hr.
  - rewrite bitrev_low by lia. assert (R := bitrev_range l r ltac:(lia)).
    rewrite (pow_sq_even zz (z l j)) by (assumption || lia).
    replace (c * (2 * t) + r) with (2 * c * t + r) by ring. reflexivity.
  - assert (Ebr : bitrev (l + 1) (t + r) = 2 * bitrev l r + 1) by (apply bitrev_high; lia).
    rewrite Ebr. assert (R := bitrev_range l r ltac:(lia)).
    rewrite (pow_sq_odd zz (z l j)) by (assumption || lia).
    replace (c * (2 * t) + (t + r)) with ((2 * c + 1) * t + r) by ring. qring.
Qed.

Lemma FA_step_lo : eqQ (FA z (l + 1) s) (FA z l s + z (l + 1) j * FA z l (s + t)).
Proof.
  assert (Ht : 0 < t) by (apply pow2_pos; lia).
  apply FA_split.
  - apply (div_at (2 * t) c j); [fold t in Hj; lia | unfold s, posA; ring].
  - f_equal. apply (mod_at (2 * t) c j); [fold t in Hj; lia | unfold s, posA; ring].
  - apply Hz; assumption.
Qed.

Lemma FA_step_hi : eqQ (FA z (l + 1) (s + t)) (FA z l s - z (l + 1) j * FA z l (s + t)).
Proof.
  assert (Ht : 0 < t) by (apply pow2_pos; lia).
  destruct (Hz l j Hl Hj) as [H1 H2].
  rewrite (FA_split (s + t) (z (l + 1) (t + j))).
  - fold t in H2. rewrite H2. qring.
  - apply (div_at (2 * t) c (t + j)); [fold t in Hj; lia | unfold s, posA; ring].
  - f_equal. apply (mod_at (2 * t) c (t + j)); [fold t in Hj; lia | unfold s, posA; ring].
  - fold t in H2. rewrite H2. rewrite <- H1. qring.
Qed.

Lemma A_up_step (B B' : Z -> Prop) body :
  s + t < n ->
  ct_pair n t (z (l + 1) j) B B' s body ->
  bspec n t (fun i v => eqQ v (FA z l i) /\ B v)
            (fun i v => eqQ v (FA z (l + 1) i) /\ B' v) s body.
Proof.
  intros Hr Hb a HL [Hs Bs] [Hst Bst].
  assert (Ht : 0 < t) by (apply pow2_pos; lia).
  destruct (Hb a HL) as (x & y & E & Hx & Hy & Bx & By); auto.
  { unfold s, posA. nia. }
  exists x, y. split; [exact E|]. split; split; auto.
  - rewrite Hx, Hs, Hst. symmetry. apply FA_step_lo.
  - rewrite Hy, Hs, Hst. symmetry. apply FA_step_hi.
Qed.
End A_up.

(** ** Blocked loop nest, upwards (ct_std2rev) *)

(** The same tower, indexed in bit-reversed order. *)
Definition rtower (z : Z -> Z -> Z) : Prop :=
  forall l j, 0 <= l < k -> 0 <= j < 2 ^ l ->
    eqQ (z (l + 1) (2 * j) ^ 2) (z l j)
    /\ eqQ (z (l + 1) (2 * j + 1)) (- z (l + 1) (2 * j)).

Definition FB (z : Z -> Z -> Z) (l i : Z) : Z :=
  Sum (2 ^ l) (fun q => A (i mod 2 ^ (k - l) + q * 2 ^ (k - l)) * z l (i / 2 ^ (k - l)) ^ q).

Lemma FB_start z i : 0 <= i < n -> eqQ (A i) (FB z 0 i).
Proof.
  intros Hi. unfold FB. change (2 ^ 0) with 1. rewrite Sum_1.
  rewrite Z.sub_0_r. fold n. rewrite Z.mod_small by lia.
  rewrite Z.pow_0_r. replace (i + 0 * n) with i by lia. qring.
Qed.

Lemma FB_end z i : FB z k i = Sum n (fun q => A q * z k i ^ q).
Proof.
  unfold FB. fold n. replace (k - k) with 0 by lia. change (2 ^ 0) with 1.
  rewrite Z.div_1_r, Z.mod_1_r. apply Sum_ext. intros q Hq.
  now replace (0 + q * 1) with q by lia.
Qed.

Section B_up.
Variables (z : Z -> Z -> Z) (l j c : Z).
Hypothesis Hz : rtower z.
Hypothesis Hl : 0 <= l < k.
Hypothesis Hj : 0 <= j < 2 ^ l.
Let d := 2 ^ (k - 1 - l).
Hypothesis Hc : 0 <= c < d.
Let s := posB d j c.

Lemma d_facts : 0 < d /\ 2 ^ (k - l) = 2 * d /\ 2 ^ (k - (l + 1)) = d.
Proof.
  repeat split.
  - apply pow2_pos; lia.
  - unfold d. rewrite <- pow2_succ by lia. f_equal. lia.
  - unfold d. f_equal. lia.
Qed.

Lemma FB_split x zz :
  x mod d = c -> z (l + 1) (x / d) = zz -> eqQ (zz ^ 2) (z l j) ->
  eqQ (FB z (l + 1) x) (FB z l s + zz * FB z l (s + d)).
Proof.
  intros Hx Hzz Hsq. destruct d_facts as (Hd & E2 & E1).
  unfold FB. rewrite E1, E2, Hx, Hzz, pow2_succ by lia.
  assert (M1 : s mod (2 * d) = c)
    by (apply (mod_at (2 * d) j c); [lia|unfold s, posB; ring]).
  assert (M2 : s / (2 * d) = j)
    by (apply (div_at (2 * d) j c); [lia|unfold s, posB; ring]).
  assert (M3 : (s + d) mod (2 * d) = c + d)
    by (apply (mod_at (2 * d) j (c + d)); [lia|unfold s, posB; ring]).
  assert (M4 : (s + d) / (2 * d) = j)
    by (apply (div_at (2 * d) j (c + d)); [lia|unfold s, posB; ring]).
  rewrite M1, M2, M3, M4.
  assert (0 < 2 ^ l) by (apply pow2_pos; lia).
  rewrite Sum_even_odd by lia. rewrite <- Sum_mul_l.
  apply eqQ_add; apply Sum_extQ; intros q Hq.
  - rewrite (pow_sq_even zz (z l j)) by (assumption || lia).
    replace (c + 2 * q * d) with (c + q * (2 * d)) by ring. reflexivity.
  - rewrite (pow_sq_odd zz (z l j)) by (assumption || lia).
    replace (c + (2 * q + 1) * d) with (c + d + q * (2 * d)) by ring. qring.
Qed.

Lemma FB_step_lo : eqQ (FB z (l + 1) s) (FB z l s + z (l + 1) (2 * j) * FB z l (s + d)).
Proof.
  destruct d_facts as (Hd & _).
  apply FB_split.
  - apply (mod_at d (2 * j) c); [lia | unfold s, posB; ring].
  - f_equal. apply (div_at d (2 * j) c); [lia | unfold s, posB; ring].
  - apply Hz; assumption.
Qed.

Lemma FB_step_hi :
  eqQ (FB z (l + 1) (s + d)) (FB z l s - z (l + 1) (2 * j) * FB z l (s + d)).
Proof.
  destruct d_facts as (Hd & _). destruct (Hz l j Hl Hj) as [H1 H2].
  rewrite (FB_split (s + d) (z (l + 1) (2 * j + 1))).
  - rewrite H2. qring.
  - apply (mod_at d (2 * j + 1) c); [lia | unfold s, posB; ring].
  - f_equal. apply (div_at d (2 * j + 1) c); [lia | unfold s, posB; ring].
  - rewrite H2. rewrite <- H1. qring.
Qed.

Lemma B_up_step (B B' : Z -> Prop) body :
  s + d < n ->
  ct_pair n d (z (l + 1) (2 * j)) B B' s body ->
  bspec n d (fun i v => eqQ v (FB z l i) /\ B v)
            (fun i v => eqQ v (FB z (l + 1) i) /\ B' v) s body.
Proof.
  intros Hr Hb a HL [Hs Bs] [Hst Bst]. destruct d_facts as (Hd & _).
  destruct (Hb a HL) as (x & y & E & Hx & Hy & Bx & By); auto.
  { unfold s, posB. nia. }
  exists x, y. split; [exact E|]. split; split; auto.
  - rewrite Hx, Hs, Hst. symmetry. apply FB_step_lo.
  - rewrite Hy, Hs, Hst. symmetry. apply FB_step_hi.
Qed.
End B_up.

(** ** Blocked loop nest, downwards (gs_rev2std) *)

Lemma rtower_pow z : rtower z -> forall m, 0 <= m -> forall l j q,
  0 <= l -> l + m = k -> 0 <= j < 2 ^ l -> 0 <= q < 2 ^ m ->
  eqQ (z k (j * 2 ^ m + q) ^ (2 ^ m)) (z l j).
Proof.
  intros Hz. apply (Sum_ind (fun m => forall l j q,
    0 <= l -> l + m = k -> 0 <= j < 2 ^ l -> 0 <= q < 2 ^ m ->
    eqQ (z k (j * 2 ^ m + q) ^ (2 ^ m)) (z l j))).
  - intros l j q H0 Hlm Hj Hq. change (2 ^ 0) with 1 in *.
    replace q with 0 by lia. replace (j * 1 + 0) with j by lia.
    replace l with k by lia. rewrite Z.pow_1_r. reflexivity.
  - intros m Hm IH l j q H0 Hlm Hj Hq. rewrite pow2_succ in * by lia.
    assert (0 < 2 ^ m) by (apply pow2_pos; lia).
    rewrite Z.mul_comm with (n := 2) (m := 2 ^ m), Z.pow_mul_r by lia.
    destruct (Hz l j) as [H1 H2]; [lia|lia|].
    destruct (Z.lt_ge_cases q (2 ^ m)).
    + replace (j * (2 ^ m * 2) + q) with (2 * j * 2 ^ m + q) by ring.
      rewrite (IH (l + 1) (2 * j) q) by (rewrite ?pow2_succ; lia). exact H1.
    + replace (j * (2 ^ m * 2) + q) with ((2 * j + 1) * 2 ^ m + (q - 2 ^ m)) by ring.
      rewrite (IH (l + 1) (2 * j + 1) (q - 2 ^ m)) by (rewrite ?pow2_succ; lia).
      rewrite H2, <- H1. qring.
Qed.

Definition GB (e : Z -> Z) (l i : Z) : Z :=
  let D := 2 ^ (k - l) in
  Sum D (fun q => A (i / D * D + q) * e (i / D * D + q) ^ (i mod D)).

Lemma GB_start e i : eqQ (A i) (GB e k i).
Proof.
  unfold GB. replace (k - k) with 0 by lia. change (2 ^ 0) with 1. rewrite Sum_1.
  rewrite Z.div_1_r, Z.mod_1_r, Z.pow_0_r. replace (i * 1 + 0) with i by lia. qring.
Qed.

Lemma GB_end e i : 0 <= i < n -> GB e 0 i = Sum n (fun q => A q * e q ^ i).
Proof.
  intros Hi. unfold GB. rewrite Z.sub_0_r. fold n.
  rewrite Z.div_small, Z.mod_small by lia. reflexivity.
Qed.

Section B_down.
Variables (z : Z -> Z -> Z) (l j c : Z).
Hypothesis Hz : rtower z.
Hypothesis Hl : 0 <= l < k.
Hypothesis Hj : 0 <= j < 2 ^ l.
Let d := 2 ^ (k - 1 - l).
Hypothesis Hc : 0 <= c < d.
Let s := posB d j c.
Let e := z k.

Lemma GB_eqs :
  GB e (l + 1) s = Sum d (fun q => A (2 * j * d + q) * e (2 * j * d + q) ^ c)
  /\ GB e (l + 1) (s + d) = Sum d (fun q => A ((2 * j + 1) * d + q) * e ((2 * j + 1) * d + q) ^ c)
  /\ GB e l s = Sum (2 * d) (fun q => A (j * (2 * d) + q) * e (j * (2 * d) + q) ^ c)
  /\ GB e l (s + d) = Sum (2 * d) (fun q => A (j * (2 * d) + q) * e (j * (2 * d) + q) ^ (c + d)).
Proof.
  assert (Hd : 0 < d) by (apply pow2_pos; lia).
  assert (E1 : 2 ^ (k - l) = 2 * d) by (unfold d; rewrite <- pow2_succ by lia; f_equal; lia).
  assert (E2 : 2 ^ (k - (l + 1)) = d) by (unfold d; f_equal; lia).
  unfold GB. rewrite E1, E2.
  assert (M1 : s mod (2 * d) = c)
    by (apply (mod_at (2 * d) j c); [lia|unfold s, posB; ring]).
  assert (M2 : s / (2 * d) = j)
    by (apply (div_at (2 * d) j c); [lia|unfold s, posB; ring]).
  assert (M3 : (s + d) mod (2 * d) = c + d)
    by (apply (mod_at (2 * d) j (c + d)); [lia|unfold s, posB; ring]).
  assert (M4 : (s + d) / (2 * d) = j)
    by (apply (div_at (2 * d) j (c + d)); [lia|unfold s, posB; ring]).
  assert (M5 : s mod d = c)
    by (apply (mod_at d (2 * j) c); [lia|unfold s, posB; ring]).
  assert (M6 : s / d = 2 * j)
    by (apply (div_at d (2 * j) c); [lia|unfold s, posB; ring]).
  assert (M7 : (s + d) mod d = c)
    by (apply (mod_at d (2 * j + 1) c); [lia|unfold s, posB; ring]).
  assert (M8 : (s + d) / d = 2 * j + 1)
    by (apply (div_at d (2 * j + 1) c); [lia|unfold s, posB; ring]).
  rewrite M1, M2, M3, M4, M5, M6, M7, M8. auto.
Qed.

Lemma e_pow_lo q : 0 <= q < d -> eqQ (e (2 * j * d + q) ^ d) (z (l + 1) (2 * j)).
Proof.
  intros Hq. unfold e, d in *.
  apply rtower_pow; auto; try lia. rewrite pow2_succ; lia.
Qed.

Lemma e_pow_hi q : 0 <= q < d -> eqQ (e ((2 * j + 1) * d + q) ^ d) (- z (l + 1) (2 * j)).
Proof.
  intros Hq. destruct (Hz l j Hl Hj) as [_ <-]. unfold e, d in *.
  apply rtower_pow; auto; try lia. rewrite pow2_succ; lia.
Qed.

Lemma GB_step_lo : eqQ (GB e l s) (GB e (l + 1) s + GB e (l + 1) (s + d)).
Proof.
  destruct GB_eqs as (-> & -> & -> & _).
  assert (Hd : 0 < d) by (apply pow2_pos; lia).
  rewrite Sum_double by lia. apply eqQ_add; apply Sum_extQ; intros q Hq.
  - now replace (j * (2 * d) + q) with (2 * j * d + q) by ring.
  - now replace (j * (2 * d) + (d + q)) with ((2 * j + 1) * d + q) by ring.
Qed.

Lemma GB_step_hi :
  eqQ (GB e l (s + d)) (z (l + 1) (2 * j) * (GB e (l + 1) s - GB e (l + 1) (s + d))).
Proof.
  destruct GB_eqs as (-> & -> & _ & ->).
  assert (Hd : 0 < d) by (apply pow2_pos; lia).
  rewrite Sum_double by lia.
  rewrite Z.mul_sub_distr_l, <- !Sum_mul_l.
  rewrite <- Z.add_opp_r. apply eqQ_add.
  - apply Sum_extQ. intros q Hq.
    replace (j * (2 * d) + q) with (2 * j * d + q) by ring.
    rewrite Z.pow_add_r by lia. rewrite e_pow_lo by assumption. qring.
  - replace (- Sum d _) with (-1 * Sum d (fun q => z (l + 1) (2 * j) *
       (A ((2 * j + 1) * d + q) * e ((2 * j + 1) * d + q) ^ c))) by ring.
    rewrite <- Sum_mul_l.
    apply Sum_extQ. intros q Hq.
    replace (j * (2 * d) + (d + q)) with ((2 * j + 1) * d + q) by ring.
    rewrite Z.pow_add_r by lia. rewrite e_pow_hi by assumption. qring.
Qed.

Lemma B_down_step (B B' : Z -> Prop) body :
  s + d < n ->
  gs_pair n d (z (l + 1) (2 * j)) B B' s body ->
  bspec n d (fun i v => eqQ v (GB e (l + 1) i) /\ B v)
            (fun i v => eqQ v (GB e l i) /\ B' v) s body.
Proof.
  intros Hr Hb a HL [Hs Bs] [Hst Bst].
  assert (Hd : 0 < d) by (apply pow2_pos; lia).
  destruct (Hb a HL) as (x & y & E & Hx & Hy & Bx & By); auto.
  { unfold s, posB. nia. }
  exists x, y. split; [exact E|]. split; split; auto.
  - rewrite Hx, Hs, Hst. symmetry. apply GB_step_lo.
  - rewrite Hy, Hs, Hst. symmetry. apply GB_step_hi.
Qed.
End B_down.

(** ** Strided loop nest, downwards (gs_std2rev) *)

Lemma tower_pow z : tower z -> forall m, 0 <= m -> forall l j q,
  0 <= l -> l + m = k -> 0 <= j < 2 ^ l -> 0 <= q < 2 ^ m ->
  eqQ (z k (j + q * 2 ^ l) ^ (2 ^ m)) (z l j).
Proof.
  intros Hz. apply (Sum_ind (fun m => forall l j q,
    0 <= l -> l + m = k -> 0 <= j < 2 ^ l -> 0 <= q < 2 ^ m ->
    eqQ (z k (j + q * 2 ^ l) ^ (2 ^ m)) (z l j))).
  - intros l j q H0 Hlm Hj Hq. change (2 ^ 0) with 1 in *.
    replace q with 0 by lia. replace (j + 0 * 2 ^ l) with j by lia.
    replace l with k by lia. rewrite Z.pow_1_r. reflexivity.
  - intros m Hm IH l j q H0 Hlm Hj Hq. rewrite pow2_succ in * by lia.
    assert (0 < 2 ^ m) by (apply pow2_pos; lia).
    rewrite Z.mul_comm with (n := 2) (m := 2 ^ m), Z.pow_mul_r by lia.
    destruct (Hz l j) as [H1 H2]; [lia|lia|].
    destruct (Z.eq_dec (q mod 2) 0) as [Ev|Od].
    + replace (j + q * 2 ^ l) with (j + (q / 2) * 2 ^ (l + 1)).
      2:{ rewrite pow2_succ by lia. replace q with (2 * (q / 2)) at 2 by lia. ring. }
      rewrite (IH (l + 1) j (q / 2)) by (rewrite ?pow2_succ; lia). exact H1.
    + replace (j + q * 2 ^ l) with (2 ^ l + j + (q / 2) * 2 ^ (l + 1)).
      2:{ rewrite pow2_succ by lia. replace q with (2 * (q / 2) + 1) at 2 by lia. ring. }
      rewrite (IH (l + 1) (2 ^ l + j) (q / 2)) by (rewrite ?pow2_succ; lia).
      rewrite H2, <- H1. qring.
Qed.

Definition HA (e : Z -> Z) (l i : Z) : Z :=
  let m := 2 ^ l in
  Sum (2 ^ (k - l)) (fun q => A (i mod m + q * m) * e (i mod m + q * m) ^ bitrev (k - l) (i / m)).

Lemma HA_start e i : 0 <= i < n -> eqQ (A i) (HA e k i).
Proof.
  intros Hi. unfold HA. replace (k - k) with 0 by lia. change (2 ^ 0) with 1. rewrite Sum_1.
  fold n. rewrite Z.mod_small by lia. rewrite bitrev_0, Z.pow_0_r.
  replace (i + 0 * n) with i by lia. qring.
Qed.

Lemma HA_end e i : HA e 0 i = Sum n (fun q => A q * e q ^ bitrev k i).
Proof.
  unfold HA. rewrite Z.sub_0_r. fold n. change (2 ^ 0) with 1.
  rewrite Z.div_1_r, Z.mod_1_r. apply Sum_ext. intros q Hq.
  now replace (0 + q * 1) with q by lia.
Qed.

Section A_down.
Variables (z : Z -> Z -> Z) (l j c : Z).
Hypothesis Hz : tower z.
Hypothesis Hl : 0 <= l < k.
Hypothesis Hj : 0 <= j < 2 ^ l.
Hypothesis Hc : 0 <= c.
Let t := 2 ^ l.
Let s := posA t j c.
Let e := z k.
Let m := 2 ^ (k - 1 - l).
Let R := bitrev (k - 1 - l) c.

Lemma HA_eqs :
  HA e (l + 1) s = Sum m (fun q => A (j + q * (2 * t)) * e (j + q * (2 * t)) ^ R)
  /\ HA e (l + 1) (s + t) = Sum m (fun q => A (t + j + q * (2 * t)) * e (t + j + q * (2 * t)) ^ R)
  /\ HA e l s = Sum (2 * m) (fun q => A (j + q * t) * e (j + q * t) ^ R)
  /\ HA e l (s + t) = Sum (2 * m) (fun q => A (j + q * t) * e (j + q * t) ^ (m + R)).
Proof.
  assert (Ht : 0 < t) by (apply pow2_pos; lia).
  assert (E0 : 2 ^ (l + 1) = 2 * t) by (unfold t; now rewrite pow2_succ by lia).
  assert (E1 : 2 ^ (k - l) = 2 * m) by (unfold m; rewrite <- pow2_succ by lia; f_equal; lia).
  assert (E2 : 2 ^ (k - (l + 1)) = m) by (unfold m; f_equal; lia).
  fold t in Hj.
  unfold HA. rewrite E0, E1, E2. fold t.
  assert (M1 : s mod (2 * t) = j)
    by (apply (mod_at (2 * t) c j); [lia|unfold s, posA; ring]).
  assert (M2 : s / (2 * t) = c)
    by (apply (div_at (2 * t) c j); [lia|unfold s, posA; ring]).
  assert (M3 : (s + t) mod (2 * t) = t + j)
    by (apply (mod_at (2 * t) c (t + j)); [lia|unfold s, posA; ring]).
  assert (M4 : (s + t) / (2 * t) = c)
    by (apply (div_at (2 * t) c (t + j)); [lia|unfold s, posA; ring]).
  assert (M5 : s mod t = j)
    by (apply (mod_at t (2 * c) j); [lia|unfold s, posA; ring]).
  assert (M6 : s / t = 2 * c)
    by (apply (div_at t (2 * c) j); [lia|unfold s, posA; ring]).
  assert (M7 : (s + t) mod t = j)
    by (apply (mod_at t (2 * c + 1) j); [lia|unfold s, posA; ring]).
  assert (M8 : (s + t) / t = 2 * c + 1)
    by (apply (div_at t (2 * c + 1) j); [lia|unfold s, posA; ring]).
  rewrite M1, M2, M3, M4, M5, M6, M7, M8.
  replace (k - (l + 1)) with (k - 1 - l) by lia.
  replace (k - l) with ((k - 1 - l) + 1) by lia.
  rewrite bitrev_even, bitrev_odd by lia. auto.
Qed.

Lemma e_pow_A_lo q : 0 <= q < m -> eqQ (e (j + q * (2 * t)) ^ m) (z (l + 1) j).
Proof.
  intros Hq. unfold e, m, t in *. rewrite <- pow2_succ by lia.
  apply tower_pow; auto; try lia. rewrite pow2_succ; lia.
Qed.

Lemma e_pow_A_hi q : 0 <= q < m -> eqQ (e (t + j + q * (2 * t)) ^ m) (- z (l + 1) j).
Proof.
  intros Hq. destruct (Hz l j Hl Hj) as [_ <-].
  unfold e, m, t in *. rewrite <- pow2_succ by lia.
  apply tower_pow; auto; try lia. rewrite pow2_succ; lia.
Qed.

Lemma HA_step_lo : eqQ (HA e l s) (HA e (l + 1) s + HA e (l + 1) (s + t)).
Proof.
  destruct HA_eqs as (-> & -> & -> & _).
  assert (0 < m) by (apply pow2_pos; lia).
  rewrite Sum_even_odd by lia. apply eqQ_add; apply Sum_extQ; intros q Hq.
  - now replace (j + 2 * q * t) with (j + q * (2 * t)) by ring.
  - now replace (j + (2 * q + 1) * t) with (t + j + q * (2 * t)) by ring.
Qed.

Lemma HA_step_hi :
  eqQ (HA e l (s + t)) (z (l + 1) j * (HA e (l + 1) s - HA e (l + 1) (s + t))).
Proof.
  destruct HA_eqs as (-> & -> & _ & ->).
  assert (0 < m) by (apply pow2_pos; lia).
  assert (HR : 0 <= R < m) by (apply bitrev_range; lia).
  rewrite Sum_even_odd by lia.
  rewrite Z.mul_sub_distr_l, <- !Sum_mul_l.
  rewrite <- Z.add_opp_r. apply eqQ_add.
  - apply Sum_extQ. intros q Hq.
    replace (j + 2 * q * t) with (j + q * (2 * t)) by ring.
    rewrite Z.pow_add_r by lia. rewrite e_pow_A_lo by assumption. qring.
  - replace (- Sum m _) with (-1 * Sum m (fun q => z (l + 1) j *
       (A (t + j + q * (2 * t)) * e (t + j + q * (2 * t)) ^ R))) by ring.
    rewrite <- Sum_mul_l.
    apply Sum_extQ. intros q Hq.
    replace (j + (2 * q + 1) * t) with (t + j + q * (2 * t)) by ring.
    rewrite Z.pow_add_r by lia. rewrite e_pow_A_hi by assumption. qring.
Qed.

Lemma A_down_step (B B' : Z -> Prop) body :
  s + t < n ->
  gs_pair n t (z (l + 1) j) B B' s body ->
  bspec n t (fun i v => eqQ v (HA e (l + 1) i) /\ B v)
            (fun i v => eqQ v (HA e l i) /\ B' v) s body.
Proof.
  intros Hr Hb a HL [Hs Bs] [Hst Bst].
  assert (Ht : 0 < t) by (apply pow2_pos; lia).
  destruct (Hb a HL) as (x & y & E & Hx & Hy & Bx & By); auto.
  { unfold s, posA. nia. }
  exists x, y. split; [exact E|]. split; split; auto.
  - rewrite Hx, Hs, Hst. symmetry. apply HA_step_lo.
  - rewrite Hy, Hs, Hst. symmetry. apply HA_step_hi.
Qed.
End A_down.

End Levels.
