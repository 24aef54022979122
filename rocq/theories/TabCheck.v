(** Checking a given table of constants in one pass over it. *)

From Coq Require Import ZArith List Bool Lia Setoid Morphisms.
From Verif Require Import CSem Spec Loops ModQ Exlib.
Import ListNotations.
Open Scope Z_scope.

(** [x^(2^m)] *)
Fixpoint sq (m : nat) (x : Z) : Z := match m with O => x | S m => sq m (x * x mod Q) end.
Lemma sq_ok m : forall x, eqQ (sq m x) (x ^ (2 ^ Z.of_nat m)).
Proof.
  induction m as [|m IH]; intros x; [cbn [sq]; change (2 ^ Z.of_nat 0) with 1; rewrite Z.pow_1_r; reflexivity|].
  cbn [sq]. rewrite IH, eqQ_mod. rewrite Nat2Z.inj_succ, Z.pow_succ_r by lia.
  rewrite Z.pow_mul_r by (try apply Z.pow_nonneg; lia). replace (x ^ 2) with (x * x) by ring. reflexivity.
Qed.

(** The [2^l] powers [c, c w, c w^2, ..], and the same in bit-reverse order *)
Fixpoint pw (l : nat) (w c : Z) : list Z :=
  match l with O => [c] | S l => pw l w c ++ pw l w (c * sq l w mod Q) end.
Fixpoint pwr (l : nat) (w c : Z) : list Z :=
  match l with O => [c] | S l => let w2 := w * w mod Q in pwr l w2 c ++ pwr l w2 (c * w mod Q) end.

Lemma at_app_l (x y : list Z) i : 0 <= i < zlen x -> at_ (x ++ y) i = at_ x i.
Proof. unfold zlen, at_. intros H. apply app_nth1. lia. Qed.
Lemma at_app_r (x y : list Z) i n : zlen x = n -> 0 <= i -> at_ (x ++ y) (n + i) = at_ y i.
Proof. unfold zlen, at_. intros H Hi. rewrite app_nth2 by lia. f_equal. lia. Qed.
Lemma zlen_app' (x y : list Z) : zlen (x ++ y) = zlen x + zlen y.
Proof. unfold zlen. rewrite app_length. lia. Qed.

Lemma pw_len l : forall w c, zlen (pw l w c) = 2 ^ Z.of_nat l.
Proof.
  induction l as [|l IH]; intros w c; [reflexivity|]. cbn [pw]. rewrite zlen_app', !IH.
  rewrite Nat2Z.inj_succ, Z.pow_succ_r by lia. lia.
Qed.
Lemma pwr_len l : forall w c, zlen (pwr l w c) = 2 ^ Z.of_nat l.
Proof.
  induction l as [|l IH]; intros w c; [reflexivity|]. cbn [pwr]. rewrite zlen_app', !IH.
  rewrite Nat2Z.inj_succ, Z.pow_succ_r by lia. lia.
Qed.

Lemma halves j m : 0 <= j < 2 * m -> (0 <= j < m \/ exists i, j = m + i /\ 0 <= i < m).
Proof. intros H. destruct (Z_lt_ge_dec j m); [left; lia|right]. exists (j - m). lia. Qed.

Lemma pw_at l : forall w c j, 0 <= j < 2 ^ Z.of_nat l -> eqQ (at_ (pw l w c) j) (c * w ^ j).
Proof.
  induction l as [|l IH]; intros w c j Hj.
  - change (2 ^ Z.of_nat 0) with 1 in Hj. replace j with 0 by lia. cbn. rewrite Z.mul_1_r. reflexivity.
  - rewrite Nat2Z.inj_succ, Z.pow_succ_r in Hj by lia. cbn [pw].
    destruct (halves j _ Hj) as [H|(i & -> & Hi)].
    + rewrite at_app_l by (rewrite pw_len; exact H). apply IH, H.
    + rewrite (at_app_r _ _ i (2 ^ Z.of_nat l)) by (try apply pw_len; lia). rewrite IH by exact Hi. rewrite eqQ_mod, sq_ok.
      rewrite Z.pow_add_r by lia. qring.
Qed.
Lemma pwr_at l : forall w c j, 0 <= j < 2 ^ Z.of_nat l -> eqQ (at_ (pwr l w c) j) (c * w ^ bitrev (Z.of_nat l) j).
Proof.
  induction l as [|l IH]; intros w c j Hj.
  - change (2 ^ Z.of_nat 0) with 1 in Hj. replace j with 0 by lia. cbn. rewrite Z.mul_1_r. reflexivity.
  - rewrite Nat2Z.inj_succ in *. rewrite Z.pow_succ_r in Hj by lia. cbn [pwr].
    assert (R : forall i, 0 <= bitrev (Z.of_nat l) i) by (intros; apply bitrev_range; lia).
    change (Z.succ (Z.of_nat l)) with (Z.of_nat l + 1).
    assert (P : forall e, 0 <= e -> eqQ ((w * w mod Q) ^ e) (w ^ (2 * e))).
    { intros e He. rewrite eqQ_mod. rewrite Z.pow_mul_r by lia. replace (w ^ 2) with (w * w) by ring. reflexivity. }
    destruct (halves j _ Hj) as [H|(i & -> & Hi)].
    + rewrite at_app_l by (rewrite pwr_len; exact H). rewrite IH by exact H. rewrite P by apply R.
      rewrite bitrev_low by lia. reflexivity.
    + rewrite (at_app_r _ _ i (2 ^ Z.of_nat l)) by (try apply pwr_len; lia). rewrite IH by exact Hi. rewrite P by apply R.
      rewrite bitrev_high by lia. specialize (R i). rewrite Z.pow_add_r, Z.pow_1_r by lia. rewrite eqQ_mod. qring.
Qed.

(** [t] starts with a segment congruent to [s]; what follows it *)
Fixpoint strip (s t : list Z) : option (list Z) :=
  match s, t with
  | [], _ => Some t
  | x :: s, y :: t => if (x - y) mod Q =? 0 then strip s t else None
  | _ :: _, [] => None
  end.
Lemma strip_ok s : forall t r, strip s t = Some r ->
  exists u, t = u ++ r /\ zlen u = zlen s /\ forall j, 0 <= j < zlen s -> eqQ (at_ u j) (at_ s j).
Proof.
  induction s as [|x s IH]; intros t r E.
  - injection E as <-. exists []. split; [reflexivity|]. split; [reflexivity|]. intros j Hj. cbn in Hj. lia.
  - destruct t as [|y t]; [discriminate|]. cbn [strip] in E. destruct (Z.eqb_spec ((x - y) mod Q) 0) as [H|]; [|discriminate].
    apply IH in E as (u & -> & Lu & Vu). exists (y :: u). split; [reflexivity|]. unfold zlen in *. cbn [length].
    split; [lia|]. intros j Hj. unfold at_ in *. destruct (Z.eq_dec j 0) as [->|].
    + cbn. unfold eqQ. apply Z.mod_divide in H as [q Hq]; [|unfold Q; lia]. replace y with (x + (- q) * Q) by lia.
      rewrite Z.mod_add by (unfold Q; lia). reflexivity.
    + replace (Z.to_nat j) with (S (Z.to_nat (j - 1))) by lia. cbn [nth]. apply Vu. lia.
Qed.

(** Segments [seg l, seg (l+1), ..., seg (l+m-1)] and nothing else *)
Fixpoint segs (seg : nat -> list Z) (m l : nat) (t : list Z) : bool :=
  match m with
  | O => match t with [] => true | _ => false end
  | S m => match strip (seg l) t with Some t => segs seg m (S l) t | None => false end
  end.

Lemma segs_ok seg : (forall l, zlen (seg l) = 2 ^ Z.of_nat l) -> forall m l t, segs seg m l t = true ->
  zlen t = 2 ^ Z.of_nat (l + m) - 2 ^ Z.of_nat l
  /\ forall i j, (l <= i < l + m)%nat -> 0 <= j < 2 ^ Z.of_nat i ->
     eqQ (at_ t (2 ^ Z.of_nat i - 2 ^ Z.of_nat l + j)) (at_ (seg i) j).
Proof.
  intros HL. induction m as [|m IH]; intros l t E; cbn [segs] in E.
  - destruct t; [|discriminate]. rewrite Nat.add_0_r. split; [cbn; lia|]. intros; lia.
  - destruct (strip (seg l) t) as [r|] eqn:Es; [|discriminate]. apply strip_ok in Es as (u & -> & Lu & Vu).
    apply IH in E as [Lr Vr]. rewrite HL in Lu. replace (S l + m)%nat with (l + S m)%nat in * by lia.
    rewrite Nat2Z.inj_succ, Z.pow_succ_r in Lr by lia.
    split; [rewrite zlen_app'; lia|]. intros i j Hi Hj. destruct (Nat.eq_dec i l) as [->|].
    + rewrite Z.sub_diag, Z.add_0_l. rewrite at_app_l by lia. apply Vu. rewrite HL. exact Hj.
    + specialize (Vr i j ltac:(lia) Hj). rewrite Nat2Z.inj_succ, Z.pow_succ_r in Vr by lia.
      assert (2 ^ Z.of_nat (S l) <= 2 ^ Z.of_nat i) by (apply Z.pow_le_mono_r; lia).
      rewrite Nat2Z.inj_succ, Z.pow_succ_r in H by lia.
      replace (2 ^ Z.of_nat i - 2 ^ Z.of_nat l + j)
        with (2 ^ Z.of_nat l + (2 ^ Z.of_nat i - 2 * 2 ^ Z.of_nat l + j)) by lia.
      rewrite (at_app_r u r _ (2 ^ Z.of_nat l) Lu) by lia. exact Vr.
Qed.

(** Tables: entry 0 is not constrained *)
Definition table_check (seg : nat -> list Z) (k : nat) (p : list Z) : bool :=
  match p with [] => false | _ :: t => segs seg k 0 t end.
Lemma table_check_ok seg k p : (forall l, zlen (seg l) = 2 ^ Z.of_nat l) -> table_check seg k p = true ->
  table_at (Z.of_nat k) p (fun l j => at_ (seg (Z.to_nat l)) j).
Proof.
  intros HL E. destruct p as [|x t]; [discriminate|]. cbn [table_check] in E. apply (segs_ok seg HL) in E as [L V].
  cbn [Nat.add] in L, V. change (2 ^ Z.of_nat 0) with 1 in *. unfold table_at. split.
  - unfold zlen in *. cbn [length]. lia.
  - intros l j Hl Hj. specialize (V (Z.to_nat l) j ltac:(lia)). rewrite Z2Nat.id in V by lia. specialize (V Hj). rewrite <- V.
    assert (0 < 2 ^ l) by (apply Z.pow_pos_nonneg; lia).
    unfold at_. replace (Z.to_nat (2 ^ l + j)) with (S (Z.to_nat (2 ^ l - 1 + j))) by lia. reflexivity.
Qed.

Lemma half_pow k l : (l < k)%nat -> 2 ^ Z.of_nat k / (2 * 2 ^ Z.of_nat l) = 2 ^ Z.of_nat (k - 1 - l).
Proof.
  intros H. rewrite <- Z.pow_succ_r by lia. rewrite <- Z.pow_sub_r by lia. f_equal. lia.
Qed.

Definition omega_seg (k : nat) (w c : Z) (l : nat) := pw l (sq (k - 1 - l) w) c.
Definition omega_rev_seg (k : nat) (w c : Z) (l : nat) := pwr l (sq (k - 1 - l) w) c.
Definition mixed_seg (k : nat) (w c : Z) (l : nat) := pw l (sq (k - 1 - l) (w * w)) (c * sq (k - 1 - l) w).
Definition mixed_rev_seg (k : nat) (w c : Z) (l : nat) := pwr l (sq (k - 1 - l) (w * w)) (c * sq (k - 1 - l) w).

Section Tables.
Variables (k : nat) (w c : Z) (p : list Z).

Let ext f g : (forall l j, (l < k)%nat -> 0 <= j < 2 ^ Z.of_nat l -> eqQ (f (Z.of_nat l) j) (g (Z.of_nat l) j)) ->
  table_at (Z.of_nat k) p f -> table_at (Z.of_nat k) p g.
Proof.
  intros H [L V]. split; [exact L|]. intros l j Hl Hj. rewrite V by assumption.
  specialize (H (Z.to_nat l) j). rewrite Z2Nat.id in H by lia. apply H; [lia|exact Hj].
Qed.

Lemma omega_check : table_check (omega_seg k w c) k p = true -> omega_table (Z.of_nat k) w c p.
Proof.
  intros E. apply table_check_ok in E; [|intros; apply pw_len]. refine (ext _ _ _ E). intros l j Hl Hj.
  rewrite Nat2Z.id. unfold omega_seg. rewrite pw_at by exact Hj. rewrite sq_ok, half_pow by exact Hl. reflexivity.
Qed.
Lemma omega_rev_check : table_check (omega_rev_seg k w c) k p = true -> omega_table_rev (Z.of_nat k) w c p.
Proof.
  intros E. apply table_check_ok in E; [|intros; apply pwr_len]. refine (ext _ _ _ E). intros l j Hl Hj.
  rewrite Nat2Z.id. unfold omega_rev_seg. rewrite pwr_at by exact Hj. rewrite sq_ok, half_pow by exact Hl. reflexivity.
Qed.
Lemma mixed_check : table_check (mixed_seg k w c) k p = true -> mixed_table (Z.of_nat k) w c p.
Proof.
  intros E. apply table_check_ok in E; [|intros; apply pw_len]. refine (ext _ _ _ E). intros l j Hl Hj.
  rewrite Nat2Z.id. unfold mixed_seg. rewrite pw_at by exact Hj. rewrite !sq_ok, half_pow by exact Hl.
  replace (w ^ 2) with (w * w) by ring. qring.
Qed.
Lemma mixed_rev_check : table_check (mixed_rev_seg k w c) k p = true -> mixed_table_rev (Z.of_nat k) w c p.
Proof.
  intros E. apply table_check_ok in E; [|intros; apply pwr_len]. refine (ext _ _ _ E). intros l j Hl Hj.
  rewrite Nat2Z.id. unfold mixed_rev_seg. rewrite pwr_at by exact Hj. rewrite !sq_ok, half_pow by exact Hl.
  replace (w ^ 2) with (w * w) by ring. qring.
Qed.
End Tables.
