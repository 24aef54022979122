(** The exact values of ntt_red_ct_rev2std, and what happens when it is called over and over on the
    same array. *)

From Coq Require Import ZArith List Bool Lia Setoid Morphisms.
From Verif Require Import CSem Spec Loops ModQ Stages OuterLoops Tower TransformGen Forms ModelRed
  NttElem RedElem RedBfly RedTransforms ProdRed IdealRed IdealProd.
Import ListNotations.
Open Scope Z_scope.

(** ** The values with unbounded integers *)

Section V.
Variables (p a : list Z).

(** the entry [i] after the rounds t = 1, 2, ..., 2^(l-1) *)
Fixpoint val (l : nat) (i : Z) : Z :=
  match l with
  | O => at_ a i
  | S l =>
      let t := 2 ^ Z.of_nat l in
      let j := i mod t in
      let top := i mod (2 * t) <? t in
      let s := if top then i else i - t in
      let x := if j =? 0 then val l (s + t) else redz (val l (s + t) * at_ p (t + j)) in
      if top then val l s + x else val l s - x
  end.

Definition twiddled (l : nat) (j s : Z) : Z :=
  let t := 2 ^ Z.of_nat l in
  if j =? 0 then val l (s + t) else redz (val l (s + t) * at_ p (t + j)).

Lemma val_top l j c : 0 <= j < 2 ^ Z.of_nat l ->
  val (S l) (j + c * (2 * 2 ^ Z.of_nat l)) =
  val l (j + c * (2 * 2 ^ Z.of_nat l)) + twiddled l j (j + c * (2 * 2 ^ Z.of_nat l)).
Proof.
  intros Hj. cbn [val]. unfold twiddled. set (t := 2 ^ Z.of_nat l) in *.
  rewrite Z.mod_add by lia. rewrite (Z.mod_small j) by lia. replace (j <? t) with true by lia.
  replace ((j + c * (2 * t)) mod t) with j; [reflexivity|].
  replace (j + c * (2 * t)) with (j + (2 * c) * t) by ring. rewrite Z.mod_add by lia. symmetry. apply Z.mod_small. lia.
Qed.
Lemma val_bottom l j c : 0 <= j < 2 ^ Z.of_nat l ->
  val (S l) (j + c * (2 * 2 ^ Z.of_nat l) + 2 ^ Z.of_nat l) =
  val l (j + c * (2 * 2 ^ Z.of_nat l)) - twiddled l j (j + c * (2 * 2 ^ Z.of_nat l)).
Proof.
  intros Hj. cbn [val]. unfold twiddled. set (t := 2 ^ Z.of_nat l) in *.
  replace (j + c * (2 * t) + t) with (j + t + c * (2 * t)) by ring.
  rewrite Z.mod_add by lia. rewrite (Z.mod_small (j + t)) by lia. replace (j + t <? t) with false by lia.
  replace ((j + t + c * (2 * t)) mod t) with j;
    [|replace (j + t + c * (2 * t)) with (j + (2 * c + 1) * t) by ring; rewrite Z.mod_add by lia;
      symmetry; apply Z.mod_small; lia].
  replace (j + t + c * (2 * t) - t) with (j + c * (2 * t)) by ring.
  replace (j + t + c * (2 * t)) with (j + c * (2 * t) + t) by ring. reflexivity.
Qed.

Lemma val_first l : forall c, val l (c * 2 ^ Z.of_nat l) = Sum (2 ^ Z.of_nat l) (fun m => at_ a (c * 2 ^ Z.of_nat l + m)).
Proof.
  induction l as [|l IH]; intros c.
  - cbn [val]. change (2 ^ Z.of_nat 0) with 1. rewrite Sum_1. f_equal. lia.
  - rewrite Nat2Z.inj_succ, Z.pow_succ_r by lia. assert (Ht : 0 < 2 ^ Z.of_nat l) by (apply Z.pow_pos_nonneg; lia).
    assert (H := val_top l 0 c ltac:(lia)). rewrite Z.add_0_l in H. rewrite H. unfold twiddled. cbn [Z.eqb].
    set (t := 2 ^ Z.of_nat l) in *. rewrite Sum_double by lia.
    replace (c * (2 * t)) with ((2 * c) * t) by ring. rewrite IH. f_equal.
    replace (2 * c * t + t) with ((2 * c + 1) * t) by ring. rewrite IH. apply Sum_ext. intros i Hi. f_equal. ring.
Qed.

Lemma val_sum l : forall c, Sum (2 ^ Z.of_nat l) (fun m => val l (c * 2 ^ Z.of_nat l + m)) = 2 ^ Z.of_nat l * at_ a (c * 2 ^ Z.of_nat l).
Proof.
  induction l as [|l IH]; intros c.
  - cbn [val]. change (2 ^ Z.of_nat 0) with 1. rewrite Sum_1. rewrite Z.mul_1_l. f_equal. lia.
  - rewrite Nat2Z.inj_succ, Z.pow_succ_r by lia. assert (Ht : 0 < 2 ^ Z.of_nat l) by (apply Z.pow_pos_nonneg; lia).
    rewrite Sum_double by lia. rewrite <- Sum_add.
    transitivity (2 * Sum (2 ^ Z.of_nat l) (fun m => val l (2 * c * 2 ^ Z.of_nat l + m)));
      [|rewrite IH; replace (2 * c * 2 ^ Z.of_nat l) with (c * (2 * 2 ^ Z.of_nat l)) by ring; ring].
    rewrite <- Sum_mul_l. apply Sum_ext. intros i Hi.
    assert (H1 := val_top l i c Hi). assert (H2 := val_bottom l i c Hi).
    replace (c * (2 * 2 ^ Z.of_nat l) + i) with (i + c * (2 * 2 ^ Z.of_nat l)) by ring. rewrite H1.
    replace (c * (2 * 2 ^ Z.of_nat l) + (2 ^ Z.of_nat l + i)) with (i + c * (2 * 2 ^ Z.of_nat l) + 2 ^ Z.of_nat l) by ring.
    rewrite H2. replace (2 * c * 2 ^ Z.of_nat l + i) with (i + c * (2 * 2 ^ Z.of_nat l)) by ring. ring.
Qed.
End V.

(** ** The loops *)

Lemma pos_in k l j c : 0 <= l < k -> 0 <= j < 2 ^ l -> 0 <= c < 2 ^ (k - 1 - l) ->
  0 <= posA (2 ^ l) j c /\ posA (2 ^ l) j c + 2 ^ l < 2 ^ k.
Proof.
  intros Hl Hj Hc. assert (E : 2 ^ k = 2 * 2 ^ l * 2 ^ (k - 1 - l)).
  { replace k with (1 + l + (k - 1 - l)) at 1 by lia. rewrite !Z.pow_add_r by lia. reflexivity. }
  unfold posA. rewrite E. nia.
Qed.

Lemma ideal_runs k p a : 0 <= k <= 31 -> zlen p = 2 ^ k -> zlen a = 2 ^ k ->
  exists r, tracks (ntt_red_ct_rev2std a (2 ^ k) p) (Ok r) /\ zlen r = 2 ^ k
    /\ forall i, 0 <= i < 2 ^ k -> at_ r i = val p a (Z.to_nat k) i.
Proof.
  intros Hk Hp Ha. assert (Hn := pow31 k Hk).
  destruct (nest_A_up_plain k (2 ^ k) (fun l i v => v = val p a (Z.to_nat l) i) Hk eq_refl bfly0_ideal ct_ideal p a Hp)
    as (r & E & L & R).
  - intros l c Hl Hc. assert (Ht : 0 < 2 ^ l) by (apply pow2_pos; lia). intros b Lb B1 B2.
    assert (RG : 0 <= posA (2 ^ l) 0 c /\ posA (2 ^ l) 0 c + 2 ^ l < 2 ^ k).
    { apply (pos_in k); lia. }
    set (s := posA (2 ^ l) 0 c) in *. unfold bfly0_ideal. rewrite u32_small by lia.
    rewrite !rd_ok by lia. cbn [bind]. rewrite wr_ok by lia. cbn [bind]. rewrite rd_ok by (rewrite aset_len; lia). cbn [bind].
    rewrite at_aset_other by lia. rewrite wr_ok by (rewrite aset_len; lia).
    do 2 eexists. split; [reflexivity|]. rewrite B1, B2.
    replace (Z.to_nat (l + 1)) with (S (Z.to_nat l)) by lia.
    assert (T1 := val_top p a (Z.to_nat l) 0 c). assert (T2 := val_bottom p a (Z.to_nat l) 0 c).
    unfold twiddled in T1, T2. cbn [Z.eqb] in T1, T2. rewrite Z2Nat.id in T1, T2 by lia.
    change (0 + c * (2 * 2 ^ l)) with s in T1, T2. split; symmetry; [apply T1|apply T2]; lia.
  - intros l j c Hl Hj Hc. intros b Lb B1 B2.
    assert (RG : 0 <= posA (2 ^ l) j c /\ posA (2 ^ l) j c + 2 ^ l < 2 ^ k).
    { apply (pos_in k); lia. }
    set (s := posA (2 ^ l) j c) in *. unfold ct_ideal. rewrite u32_small by lia.
    rewrite !rd_ok by lia. cbn [bind]. rewrite wr_ok by lia. cbn [bind]. rewrite rd_ok by (rewrite aset_len; lia). cbn [bind].
    rewrite at_aset_other by lia. rewrite wr_ok by (rewrite aset_len; lia).
    do 2 eexists. split; [reflexivity|]. rewrite B1, B2.
    replace (Z.to_nat (l + 1)) with (S (Z.to_nat l)) by lia.
    assert (T1 := val_top p a (Z.to_nat l) j c). assert (T2 := val_bottom p a (Z.to_nat l) j c).
    unfold twiddled in T1, T2. replace (j =? 0) with false in T1, T2 by lia. rewrite Z2Nat.id in T1, T2 by lia.
    change (j + c * (2 * 2 ^ l)) with s in T1, T2. split; symmetry; [apply T1|apply T2]; lia.
  - split; [exact Ha|]. intros i Hi. reflexivity.
  - exists r. split; [|split; [exact L|exact R]]. rewrite <- E. unfold ntt_red_ct_rev2std. track.
Qed.

(** The first entry of the result is the sum of the array; the sum of the result is [n] times the first entry. *)
Lemma ct_rev2std_sums k p a : 0 <= k <= 31 -> zlen p = 2 ^ k -> zlen a = 2 ^ k ->
  or_stops (ntt_red_ct_rev2std a (2 ^ k) p) (2 ^ k) (fun r =>
    at_ r 0 = Sum (2 ^ k) (at_ a) /\ Sum (2 ^ k) (at_ r) = 2 ^ k * at_ a 0).
Proof.
  intros Hk Hp Ha. destruct (ideal_runs k p a Hk Hp Ha) as (r & T & L & R).
  assert (Hn : 0 < 2 ^ k) by (apply pow2_pos; lia).
  eapply tracks_stops; [exact T|reflexivity|exact L|]. split.
  - rewrite R by lia. assert (H := val_first p a (Z.to_nat k) 0). rewrite Z2Nat.id in H by lia.
    rewrite Z.mul_0_l in H. rewrite H. apply Sum_ext. reflexivity.
  - assert (H := val_sum p a (Z.to_nat k) 0). rewrite Z2Nat.id in H by lia.
    rewrite Z.mul_0_l in H. rewrite <- H. apply Sum_ext. intros i Hi. apply R, Hi.
Qed.

(** ** Repeated calls *)

Lemma pow_big b m : 2 <= b -> 0 <= m -> 2 ^ m <= b ^ m.
Proof. intros. apply Z.pow_le_mono_l. lia. Qed.

(** [m] calls of [f] on the same array *)
Fixpoint times (f : list Z -> res (list Z)) (m : nat) (a : list Z) : res (list Z) :=
  match m with O => Ok a | S m => do b <- times f m a; f b end.

Section Calls.
Variables (k : Z) (p : list Z).
Hypothesis Hk : 1 <= k <= 31.
Hypothesis Hp : zlen p = 2 ^ k.
Let n := 2 ^ k.
Let f (a : list Z) := ntt_red_ct_rev2std a n p.

Lemma f_cases a : zlen a = n -> all32 a ->
  (exists r, f a = Ok r /\ zlen r = n /\ all32 r /\ at_ r 0 = Sum n (at_ a) /\ Sum n (at_ r) = n * at_ a 0) \/ stops (f a).
Proof.
  intros L A. destruct (ct_rev2std_sums k p a ltac:(lia) Hp L) as [(r & E & Lr & H1 & H2)|H]; [left|right; exact H].
  exists r. split; [exact E|]. split; [exact Lr|]. split; [exact (ct_rev2std_keeps a n p A r E)|]. auto.
Qed.

Lemma times_cases a m : zlen a = n -> all32 a ->
  (exists r, times f m a = Ok r /\ zlen r = n /\ all32 r
     /\ (Nat.even m = true -> at_ r 0 = n ^ (Z.of_nat m / 2) * at_ a 0 /\ Sum n (at_ r) = n ^ (Z.of_nat m / 2) * Sum n (at_ a))
     /\ (Nat.even m = false -> at_ r 0 = n ^ (Z.of_nat m / 2) * Sum n (at_ a)
          /\ Sum n (at_ r) = n ^ (Z.of_nat m / 2) * (n * at_ a 0)))
  \/ stops (times f m a).
Proof.
  intros L A. induction m as [|m IH].
  - left. exists a. cbn [times]. split; [reflexivity|]. split; [exact L|]. split; [exact A|].
    change (Z.of_nat 0 / 2) with 0. rewrite Z.pow_0_r, !Z.mul_1_l. split; [auto|discriminate].
  - cbn [times]. destruct IH as [(r & E & Lr & Ar & H1 & H2)|H]; [|right; apply stops_bind, H].
    rewrite E. cbn [bind].
    destruct (f_cases r Lr Ar) as [(q & E2 & Lq & Aq & S1 & S2)|H]; [left|right; exact H].
    exists q. split; [exact E2|]. split; [exact Lq|]. split; [exact Aq|].
    rewrite S1, S2. rewrite Nat.even_succ, <- Nat.negb_even. destruct (Nat.even m) eqn:Em; cbn [negb].
    + split; [discriminate|]. intros _. destruct (H1 eq_refl) as [-> ->].
      apply Nat.even_spec in Em as [x Ex]. replace (Z.of_nat (S m) / 2) with (Z.of_nat m / 2) by (subst m; lia).
      split; ring.
    + split; [|discriminate]. intros _. destruct (H2 eq_refl) as [-> ->].
      assert (Om : Nat.odd m = true) by (rewrite <- Nat.negb_even, Em; reflexivity).
      apply Nat.odd_spec in Om as [x Ex]. replace (Z.of_nat (S m) / 2) with (Z.of_nat m / 2 + 1) by (subst m; lia).
      rewrite Z.pow_add_r, Z.pow_1_r by (subst m; lia). split; ring.
Qed.

(** At most 64 calls on an array that does not start with 0 or whose sum is not 0. *)
Lemma times_stops a : zlen a = n -> all32 a -> at_ a 0 <> 0 \/ Sum n (at_ a) <> 0 -> stops (times f 65 a).
Proof.
  intros L A H. assert (Hn : 2 <= n) by (unfold n; change 2 with (2 ^ 1) at 1; apply Z.pow_le_mono_r; lia).
  assert (P : 2 ^ 32 <= n ^ 32) by (apply pow_big; lia). change (2 ^ 32) with 4294967296 in P.
  assert (B : forall v, v <> 0 -> ~ w32 (n ^ 32 * v)).
  { intros v Hv W. unfold w32 in W. assert (X : Z.abs (n ^ 32 * v) = n ^ 32 * Z.abs v) by (rewrite Z.abs_mul; lia).
    assert (n ^ 32 * 1 <= n ^ 32 * Z.abs v) by (apply Z.mul_le_mono_nonneg_l; lia). lia. }
  destruct (times_cases a 65 L A) as [(r & E & Lr & Ar & _ & H2)|X]; [|exact X]. exfalso.
  cbn [times] in E. destruct (times_cases a 64 L A) as [(q & Eq & Lq & Aq & H1 & _)|X].
  - destruct (H1 eq_refl) as [Q1 _]. destruct (H2 eq_refl) as [R1 _].
    change (Z.of_nat 64 / 2) with 32 in Q1. change (Z.of_nat 65 / 2) with 32 in R1.
    destruct H as [H|H]; apply (B _ H); [rewrite <- Q1; apply Aq|rewrite <- R1; apply Ar]; lia.
  - destruct X as [X|X]; cbn [times] in X; rewrite X in E; discriminate.
Qed.
End Calls.
