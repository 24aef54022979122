(** The multiplicative group modulo Q has order Q-1 = 3 * 2^12: consequences
    for roots of -1. *)

From Coq Require Import ZArith Znumtheory Zpow_facts List Bool Lia Setoid Morphisms.
From Verif Require Import Spec ModQ Conv.
Import ListNotations.
Open Scope Z_scope.

Lemma eqQ_1_0 : ~ eqQ 1 0.
Proof. discriminate. Qed.
Lemma eqQ_1_m1 : ~ eqQ 1 (-1).
Proof. discriminate. Qed.

Lemma pow_eqQ_mul a e f c : 0 <= e -> 0 <= f -> eqQ (a ^ e) c -> eqQ (a ^ (e * f)) (c ^ f).
Proof. intros He Hf H. rewrite Z.pow_mul_r by lia. now rewrite H. Qed.
Lemma pow_one_mul a e f : 0 <= e -> 0 <= f -> eqQ (a ^ e) 1 -> eqQ (a ^ (e * f)) 1.
Proof. intros He Hf H. rewrite pow_eqQ_mul with (c := 1) by auto. rewrite Z.pow_1_l by lia. reflexivity. Qed.

(** Exponents with power 1 are closed under gcd. *)
Lemma pow_one_mod a m n : 0 <= m -> 0 < n -> eqQ (a ^ m) 1 -> eqQ (a ^ n) 1 -> eqQ (a ^ (m mod n)) 1.
Proof.
  intros Hm Hn H1 H2. assert (Hd := Z.mod_pos_bound m n Hn).
  assert (0 <= m / n) by (apply Z.div_pos; lia).
  assert (HE : m = n * (m / n) + m mod n) by (apply Z.div_mod; lia).
  rewrite HE in H1. rewrite Z.pow_add_r in H1 by nia.
  rewrite (pow_one_mul a n (m / n)) in H1 by (auto; lia). rewrite Z.mul_1_l in H1. exact H1.
Qed.

Lemma pow_one_gcd a : forall n m, 0 <= n -> 0 <= m -> eqQ (a ^ m) 1 -> eqQ (a ^ n) 1 ->
  eqQ (a ^ Z.gcd m n) 1.
Proof.
  intros n m Hn. revert m. pattern n. apply Zlt_0_ind; [|exact Hn]. clear n Hn.
  intros n IH Hn m Hm H1 H2. destruct (Z.eq_dec n 0) as [->|Hne].
  - rewrite Z.gcd_0_r, Z.abs_eq by lia. exact H1.
  - rewrite Z.gcd_comm. rewrite <- Z.gcd_mod by lia. rewrite Z.gcd_comm.
    apply IH; [apply Z.mod_pos_bound; lia|lia|exact H2|].
    apply pow_one_mod; auto; lia.
Qed.

(** ** 11 is a generator *)

Lemma g_half : eqQ (11 ^ 6144) (-1).
Proof. unfold eqQ. rewrite <- Zpow_mod_correct by discriminate. vm_compute. reflexivity. Qed.
Lemma g_third : ~ eqQ (11 ^ 4096) 1.
Proof. unfold eqQ. rewrite <- Zpow_mod_correct by discriminate. vm_compute. discriminate. Qed.
Lemma g_full : eqQ (11 ^ 12288) 1.
Proof. change 12288 with (6144 * 2). rewrite pow_eqQ_mul with (c := -1); [reflexivity|lia|lia|exact g_half]. Qed.
Lemma g_inv : eqQ (5586 * 11) 1.
Proof. reflexivity. Qed.

Lemma proper_divisor e : 0 < e < 12288 -> (e | 12288) -> (e | 6144) \/ (e | 4096).
Proof.
  intros He [f Hf]. destruct (Z.Even_or_Odd f) as [[h ->]|[h Hh]].
  - left. exists h. lia.
  - right. assert (Hr : rel_prime f (2 ^ 12)).
    { apply rel_prime_Zpower_r; [lia|].
      apply bezout_rel_prime. apply Bezout_intro with (u := 1) (v := - h). lia. }
    assert (Hd : (f | 2 ^ 12 * 3)) by (exists e; change (2 ^ 12) with 4096; lia).
    apply Gauss in Hd; [|exact Hr]. 
    assert (Hf3 : f <= 3) by (apply Z.divide_pos_le; [lia|exact Hd]).
    assert (Hf0 : 0 < f) by nia.
    assert (E3 : f = 3).
    { assert (E : f = 1 \/ f = 3) by lia. destruct E as [E|E]; [rewrite E in Hf; lia|exact E]. }
    exists 1. rewrite E3 in Hf. lia.
Qed.

Lemma g_order d : 0 < d < 12288 -> ~ eqQ (11 ^ d) 1.
Proof.
  intros Hd H. assert (HG := pow_one_gcd 11 12288 d ltac:(lia) ltac:(lia) H g_full).
  set (e := Z.gcd d 12288) in *.
  assert (H1 : (e | d)) by apply Z.gcd_divide_l.
  assert (H2 : (e | 12288)) by apply Z.gcd_divide_r.
  assert (H3 : 0 <= e) by apply Z.gcd_nonneg.
  assert (H4 : e <> 0) by (intros E; rewrite E in H2; destruct H2; lia).
  assert (H5 : e <= d) by (apply Z.divide_pos_le; [lia|exact H1]).
  destruct (proper_divisor e ltac:(lia) H2) as [[f Hf]|[f Hf]].
  - assert (E := pow_one_mul 11 e f H3 ltac:(nia) HG). rewrite Z.mul_comm, <- Hf in E.
    rewrite g_half in E. symmetry in E. exact (eqQ_1_m1 E).
  - assert (E := pow_one_mul 11 e f H3 ltac:(nia) HG). rewrite Z.mul_comm, <- Hf in E.
    exact (g_third E).
Qed.

Lemma g_inj i j : 0 <= i -> i < j < 12288 -> ~ eqQ (11 ^ i) (11 ^ j).
Proof.
  intros Hi Hj H. apply (g_order (j - i)); [lia|].
  replace j with (i + (j - i)) in H by lia. rewrite Z.pow_add_r in H by lia.
  symmetry. apply (eqQ_cancel (11 ^ i) (5586 ^ i)).
  - rewrite <- Z.pow_mul_l. rewrite g_inv. rewrite Z.pow_1_l by lia. reflexivity.
  - rewrite Z.mul_1_r. exact H.
Qed.

(** ** Every non-zero residue is a power of 11 *)

Lemma NoDup_map_inj {A B} (f : A -> B) l :
  (forall x y, In x l -> In y l -> f x = f y -> x = y) -> NoDup l -> NoDup (map f l).
Proof.
  intros Hf HN. induction HN as [|x l Hx HN IH]; cbn; constructor.
  - intros H. apply in_map_iff in H as (y & E & Hy). apply Hx.
    rewrite <- (Hf y x); [exact Hy| right; exact Hy | left; reflexivity | exact E].
  - apply IH. intros y z Hy Hz. apply Hf; right; assumption.
Qed.

Lemma g_surj x : 0 < x < Q -> exists i, 0 <= i < 12288 /\ x = 11 ^ i mod Q.
Proof.
  intros Hx. set (N := Z.to_nat 12288).
  assert (HNz : Z.of_nat N = 12288) by (unfold N; apply Z2Nat.id; lia).
  clearbody N.
  set (f := fun i => 11 ^ Z.of_nat i mod Q).
  assert (H1 : NoDup (map f (seq 0 N))).
  { apply NoDup_map_inj; [|apply seq_NoDup]. intros i j Hi Hj E.
    apply in_seq in Hi, Hj. unfold f in E.
    destruct (Nat.lt_trichotomy i j) as [H|[H|H]]; [exfalso|exact H|exfalso].
    - apply (g_inj (Z.of_nat i) (Z.of_nat j)); [lia|lia|exact E].
    - apply (g_inj (Z.of_nat j) (Z.of_nat i)); [lia|lia|symmetry; exact E]. }
  assert (H2 : incl (map f (seq 0 N)) (map Z.of_nat (seq 1 N))).
  { intros y Hy. apply in_map_iff in Hy as (i & <- & Hi). apply in_seq in Hi.
    apply in_map_iff. exists (Z.to_nat (f i)).
    assert (Hf : 0 <= f i < Q) by (apply Z.mod_pos_bound; reflexivity).
    assert (Hz : f i <> 0).
    { intros E. apply eqQ_1_0. apply (eqQ_cancel (11 ^ Z.of_nat i) (5586 ^ Z.of_nat i)).
      - rewrite <- Z.pow_mul_l. rewrite g_inv. rewrite Z.pow_1_l by lia. reflexivity.
      - rewrite Z.mul_1_r, Z.mul_0_r. unfold eqQ. exact E. }
    unfold Q in Hf. split; [apply Z2Nat.id; lia|]. apply in_seq. lia. }
  assert (H3 : incl (map Z.of_nat (seq 1 N)) (map f (seq 0 N))).
  { apply NoDup_length_incl; [exact H1| |exact H2]. rewrite !map_length, !seq_length. lia. }
  assert (H4 : In x (map f (seq 0 N))).
  { apply H3. apply in_map_iff. exists (Z.to_nat x). unfold Q in Hx.
    split; [apply Z2Nat.id; lia|]. apply in_seq. lia. }
  apply in_map_iff in H4 as (i & E & Hi). apply in_seq in Hi. exists (Z.of_nat i).
  split; [lia|]. symmetry. exact E.
Qed.

Lemma fermat x : ~ eqQ x 0 -> eqQ (x ^ 12288) 1.
Proof.
  intros Hx. assert (HR : 0 <= x mod Q < Q) by (apply Z.mod_pos_bound; reflexivity).
  assert (x mod Q <> 0) by (intros E; apply Hx; unfold eqQ; rewrite E; reflexivity).
  destruct (g_surj (x mod Q)) as (i & Hi & E); [lia|].
  rewrite <- (eqQ_mod x). rewrite E. rewrite eqQ_mod. rewrite <- Z.pow_mul_r by lia.
  rewrite Z.mul_comm. apply pow_one_mul; [lia|lia|exact g_full].
Qed.

(** ** Roots of -1 *)

Lemma pow_zero x e : 0 < e -> eqQ x 0 -> eqQ (x ^ e) 0.
Proof. intros He H. rewrite H. rewrite Z.pow_0_l by lia. reflexivity. Qed.

Lemma root_bound k psi : 0 <= k -> eqQ (psi ^ (2 ^ k)) (-1) -> k <= 11.
Proof.
  intros Hk H. destruct (Z.leb_spec k 11) as [|Hgt]; [assumption|exfalso].
  assert (Hp : 0 < 2 ^ k) by (apply pow2_pos; lia).
  assert (Hnz : ~ eqQ psi 0).
  { intros E. apply (pow_zero _ (2 ^ k) Hp) in E. rewrite H in E. discriminate. }
  assert (HF := fermat psi Hnz).
  assert (E3 : eqQ (psi ^ (2 ^ k * 3)) (-1)) by (apply pow_eqQ_mul with (c := -1); auto; lia).
  assert (E : 2 ^ k * 3 = 12288 * 2 ^ (k - 12)).
  { replace k with (12 + (k - 12)) at 1 by lia. rewrite Z.pow_add_r by lia.
    change (2 ^ 12) with 4096. ring. }
  rewrite E in E3. rewrite (pow_one_mul psi 12288 (2 ^ (k - 12))) in E3;
    [exact (eqQ_1_m1 E3)|lia|apply Z.pow_nonneg; lia|exact HF].
Qed.

(** A root of -1 squared is a primitive root of unity. *)
Lemma pow2_nonzero k : 0 <= k -> ~ eqQ (2 ^ k) 0.
Proof.
  intros Hk H. apply eqQ_1_0. apply (eqQ_cancel (2 ^ k) (6145 ^ k)).
  - rewrite <- Z.pow_mul_l. change (6145 * 2) with (1 + 1 * 12289).
    transitivity (1 ^ k); [|rewrite Z.pow_1_l by lia; reflexivity].
    apply eqQ_pow; [|reflexivity]. reflexivity.
  - rewrite Z.mul_1_r, Z.mul_0_r. exact H.
Qed.

Lemma primitive k w i : 0 < k -> eqQ (w ^ (2 ^ (k - 1))) (-1) -> 0 < i < 2 ^ k -> ~ eqQ (w ^ i) 1.
Proof.
  intros Hk Hw Hi H. apply (pow2_nonzero k); [lia|].
  assert (G := geom_zero k ltac:(lia) w i (fun _ => Hw) Hi). rewrite <- G.
  transitivity (Sum (2 ^ k) (fun _ => 1)).
  - rewrite Sum_const by (apply Z.pow_nonneg; lia). rewrite Z.mul_1_r. reflexivity.
  - apply Sum_extQ. intros j Hj. rewrite Z.mul_comm. symmetry. apply pow_one_mul; [lia|lia|exact H].
Qed.

(** ** Units *)
Lemma unit_gcd a b : eqQ (a * b) 1 -> Z.gcd a Q = 1.
Proof.
  intros H. apply eqQ_iff in H as [m H]. apply Zgcd_1_rel_prime.
  apply bezout_rel_prime. apply Bezout_intro with (u := b) (v := - m). lia.
Qed.

Lemma root_gcd k psi : 0 <= k -> eqQ (psi ^ (2 ^ k)) (-1) -> Z.gcd psi Q = 1.
Proof.
  intros Hk H. assert (0 < 2 ^ k) by (apply pow2_pos; lia).
  apply (unit_gcd psi (- psi ^ (2 ^ k - 1))).
  replace (2 ^ k) with (Z.succ (2 ^ k - 1)) in H by lia. rewrite Z.pow_succ_r in H by lia.
  transitivity (- (psi * psi ^ (2 ^ k - 1))); [qring|]. rewrite H. reflexivity.
Qed.

Lemma pow2_gcd k : 0 <= k -> Z.gcd (2 ^ k) Q = 1.
Proof.
  intros Hk. apply (unit_gcd _ (6145 ^ k)). rewrite <- Z.pow_mul_l.
  transitivity (1 ^ k); [|rewrite Z.pow_1_l by lia; reflexivity].
  apply eqQ_pow; reflexivity.
Qed.
