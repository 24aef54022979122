(** Roots of -1 and primitive roots of unity of order 2^m; checking a list of them. *)

From Coq Require Import ZArith List Bool Lia Sorted Setoid Morphisms.
From Verif Require Import Spec ModQ Fermat SpecRoots.
Import ListNotations.
Open Scope Z_scope.

Lemma no_zero_divisor a b : eqQ (a * b) 0 -> eqQ a 0 \/ eqQ b 0.
Proof.
  intros H. destruct (Z.eq_dec (a mod Q) 0) as [E|E]; [left; unfold eqQ; rewrite E; reflexivity|right].
  assert (Ha : ~ eqQ a 0) by (unfold eqQ; exact E).
  assert (F := fermat a Ha).
  transitivity (1 * b); [rewrite Z.mul_1_l; reflexivity|].
  rewrite <- F. change 12288 with (Z.succ 12287). rewrite Z.pow_succ_r by discriminate.
  replace (a * a ^ 12287 * b) with (a ^ 12287 * (a * b)) by ring. rewrite H, Z.mul_0_r. reflexivity.
Qed.

Lemma eqQ_sub a b : eqQ (a - b) 0 -> eqQ a b.
Proof. intros H. apply eqQ_iff in H as [m H]. apply eqQ_iff. exists m. lia. Qed.
Lemma sub_eqQ a b : eqQ a b -> eqQ (a - b) 0.
Proof. intros H. apply eqQ_iff in H as [m H]. apply eqQ_iff. exists m. lia. Qed.

Lemma square_roots a b : eqQ (a ^ 2) (b ^ 2) -> eqQ a b \/ eqQ a (- b).
Proof.
  intros H. apply sub_eqQ in H. replace (a ^ 2 - b ^ 2) with ((a - b) * (a - - b)) in H by ring.
  apply no_zero_divisor in H as [H|H]; [left|right]; apply eqQ_sub; exact H.
Qed.

Lemma half m : 0 < m -> 2 ^ m = 2 ^ (m - 1) * 2.
Proof. intros H. replace m with (Z.succ (m - 1)) at 1 by lia. rewrite Z.pow_succ_r by lia. ring. Qed.

Lemma primitive_iff m x : 0 < m -> 0 <= x < Q ->
  (primitive_root (2 ^ m) x <-> eqQ (x ^ (2 ^ (m - 1))) (-1)).
Proof.
  intros Hm Hx. assert (P : 0 < 2 ^ (m - 1)) by (apply Z.pow_pos_nonneg; lia).
  assert (E := half m Hm). split.
  - intros (_ & H1 & H2). rewrite E, Z.pow_mul_r in H1 by lia.
    change 1 with (1 ^ 2) in H1 at 2. apply square_roots in H1 as [H1|H1]; [|exact H1].
    exfalso. apply (H2 (2 ^ (m - 1))); [lia|exact H1].
  - intros H. split; [exact Hx|]. split.
    + rewrite E, Z.pow_mul_r by lia. rewrite H. reflexivity.
    + intros i Hi. apply (primitive m); auto.
Qed.

(** All roots of -1 are odd powers of one of them. *)
Lemma odd_powers (m : nat) : forall w x, eqQ (w ^ (2 ^ Z.of_nat m)) (-1) -> eqQ (x ^ (2 ^ Z.of_nat m)) (-1) ->
  exists i, 0 <= i < 2 ^ Z.of_nat m /\ eqQ x (w ^ (2 * i + 1)).
Proof.
  induction m as [|m IH]; intros w x Hw Hx.
  - exists 0. split; [cbn; lia|]. change (2 ^ Z.of_nat 0) with 1 in *. change (2 * 0 + 1) with 1.
    rewrite !Z.pow_1_r in *. rewrite Hw, Hx. reflexivity.
  - rewrite Nat2Z.inj_succ, Z.pow_succ_r in * by lia.
    assert (P : 0 < 2 ^ Z.of_nat m) by (apply Z.pow_pos_nonneg; lia).
    assert (Hw' := Hw). rewrite Z.pow_mul_r in Hw, Hx by lia.
    destruct (IH (w ^ 2) (x ^ 2) Hw Hx) as (i & Hi & E).
    rewrite <- Z.pow_mul_r in E by lia. rewrite Z.mul_comm, Z.pow_mul_r in E by lia.
    apply square_roots in E as [E|E].
    + exists i. split; [lia|exact E].
    + exists (i + 2 ^ Z.of_nat m). split; [lia|].
      replace (2 * (i + 2 ^ Z.of_nat m) + 1) with (2 * i + 1 + 2 * 2 ^ Z.of_nat m) by ring.
      rewrite Z.pow_add_r by lia. rewrite Hw', E.
      replace (w ^ (2 * i + 1) * -1) with (- w ^ (2 * i + 1)) by ring. reflexivity.
Qed.

(** ** Checking a list *)
Fixpoint squares (m : nat) (x : Z) : Z :=
  match m with O => x | S m' => squares m' ((x * x) mod 12289) end.
Fixpoint increasing (lo : Z) (l : list Z) : bool :=
  match l with [] => true | x :: l' => (lo <? x) && increasing x l' end.
Definition check (m : nat) (l : list Z) : bool :=
  increasing 0 l && forallb (fun x => (x <? 12289) && (squares m x =? 12288)) l
  && (Z.of_nat (length l) =? 2 ^ Z.of_nat m).

Lemma squares_ok (m : nat) : forall x, eqQ (squares m x) (x ^ (2 ^ Z.of_nat m)).
Proof.
  induction m as [|m IH]; intros x; cbn [squares].
  - change (2 ^ Z.of_nat 0) with 1. rewrite Z.pow_1_r. reflexivity.
  - rewrite IH, Nat2Z.inj_succ, Z.pow_succ_r, Z.pow_mul_r by lia.
    apply eqQ_pow; [|reflexivity]. rewrite Z.pow_2_r. unfold eqQ. change 12289 with Q. apply Z.mod_mod. discriminate.
Qed.

Lemma increasing_ok : forall l lo, increasing lo l = true -> StronglySorted Z.lt l /\ (forall x, In x l -> lo < x).
Proof.
  induction l as [|y l IH]; intros lo H.
  - split; [constructor|intros x []].
  - cbn [increasing] in H. apply andb_true_iff in H as [H1 H2]. apply Z.ltb_lt in H1.
    destruct (IH y H2) as [S B]. split.
    + constructor; [exact S|]. apply Forall_forall. exact B.
    + intros x [<-|Hx]; [exact H1|]. specialize (B x Hx). lia.
Qed.

Lemma sorted_nodup l : StronglySorted Z.lt l -> NoDup l.
Proof.
  induction 1 as [|x l S IH F]; constructor; [|exact IH].
  intros H. rewrite Forall_forall in F. specialize (F x H). lia.
Qed.

Lemma check_ok (m : nat) l : check m l = true ->
  StronglySorted Z.lt l /\ forall x, In x l <-> primitive_root (2 ^ (Z.of_nat m + 1)) x.
Proof.
  intros H. unfold check in H. apply andb_true_iff in H as [H HL]. apply andb_true_iff in H as [HI HF].
  apply Z.eqb_eq in HL. destruct (increasing_ok l 0 HI) as [HS HB].
  rewrite forallb_forall in HF. split; [exact HS|].
  assert (Root : forall x, In x l -> 0 <= x < Q /\ eqQ (x ^ (2 ^ Z.of_nat m)) (-1)).
  { intros x Hx. specialize (HB x Hx). specialize (HF x Hx). apply andb_true_iff in HF as [F1 F2].
    apply Z.ltb_lt in F1. apply Z.eqb_eq in F2. split; [unfold Q; lia|].
    rewrite <- squares_ok, F2. reflexivity. }
  assert (Hm : Z.of_nat m + 1 - 1 = Z.of_nat m) by lia.
  intros x. split.
  - intros Hx. destruct (Root x Hx) as [B R]. apply primitive_iff; [lia|exact B|]. rewrite Hm. exact R.
  - intros Hp. assert (Bx : 0 <= x < Q) by (exact (proj1 Hp)).
    apply primitive_iff in Hp; [|lia|exact Bx]. rewrite Hm in Hp.
    assert (P : 0 < 2 ^ Z.of_nat m) by (apply Z.pow_pos_nonneg; lia).
    destruct l as [|w l0] eqn:El; [cbn in HL; lia|]. rewrite <- El in *.
    assert (Hw : In w l) by (rewrite El; left; reflexivity).
    destruct (Root w Hw) as [_ Rw].
    set (P0 := map (fun i => w ^ (2 * Z.of_nat i + 1) mod Q) (seq 0 (length l))).
    assert (All : forall y, 0 <= y < Q -> eqQ (y ^ (2 ^ Z.of_nat m)) (-1) -> In y P0).
    { intros y By Ry. destruct (odd_powers m w y Rw Ry) as (i & Hi & E).
      apply in_map_iff. exists (Z.to_nat i). split.
      - rewrite Z2Nat.id by lia. unfold eqQ in E. rewrite <- E. apply Z.mod_small. exact By.
      - apply in_seq. lia. }
    assert (I : incl P0 l).
    { apply NoDup_length_incl.
      - apply sorted_nodup. exact HS.
      - unfold P0. rewrite map_length, seq_length. apply le_n.
      - intros y Hy. destruct (Root y Hy) as [By Ry]. apply All; assumption. }
    apply I. apply All; assumption.
Qed.
