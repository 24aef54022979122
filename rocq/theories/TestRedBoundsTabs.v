(** Estimates of the bounds that show_ct_bounds of src/test_red_bounds.c prints. *)

From Coq Require Import ZArith List Bool Lia.
From Verif Require Import CSem Spec Loops ModQ ModelBounds ModelTestRedBounds RedElem BoundsElem BoundsRound BoundsNtt.
From Verif Require NttElem.
Import ListNotations.
Open Scope Z_scope.

(** ** The tables *)

(** The largest absolute value of p[t], .., p[2t-1] *)
Definition row_max (t : nat) (p : list Z) : Z := fold_right Z.max 0 (map Z.abs (firstn t (skipn t p))).

Lemma fold_max_ge l x : In x l -> x <= fold_right Z.max 0 l.
Proof. induction l as [|y l IH]; cbn [fold_right]; [easy|]. intros [->|H]; [lia|]. specialize (IH H). lia. Qed.

Lemma fold_max_nonneg l : 0 <= fold_right Z.max 0 l.
Proof. induction l as [|y l IH]; cbn [fold_right]; lia. Qed.

Lemma row_max_ge p t j : 0 <= t -> 0 <= j < t -> t + j < zlen p -> Z.abs (at_ p (t + j)) <= row_max (Z.to_nat t) p.
Proof.
  intros Ht Hj HL. unfold row_max. apply fold_max_ge, in_map. unfold at_, zlen in *.
  replace (Z.to_nat (t + j)) with (Z.to_nat t + Z.to_nat j)%nat by lia.
  rewrite <- (firstn_skipn (Z.to_nat t) p) at 1.
  assert (HF : length (firstn (Z.to_nat t) p) = Z.to_nat t) by (apply firstn_length_le; lia).
  rewrite app_nth2 by lia. rewrite HF. replace (Z.to_nat t + Z.to_nat j - Z.to_nat t)%nat with (Z.to_nat j) by lia.
  set (q := skipn (Z.to_nat t) p). assert (Hq : (Z.to_nat j < length q)%nat) by (unfold q; rewrite skipn_length; lia).
  rewrite <- (firstn_skipn (Z.to_nat t) q) at 1.
  assert (HF' : (Z.to_nat j < length (firstn (Z.to_nat t) q))%nat) by (rewrite firstn_length; lia).
  rewrite app_nth1 by exact HF'. apply nth_In. exact HF'.
Qed.

(** What is needed of a table of 2^k constants *)
Definition entry_ok (x : Z) : bool := negb (x =? 0) && (-6144 <=? x) && (x <=? 6144).
Definition table_ok (k : nat) (p : list Z) : bool := (length p =? Nat.pow 2 k)%nat && forallb entry_ok (tl p).

Lemma table_ok_sound k p : table_ok k p = true -> bnd_table (Z.of_nat k) p.
Proof.
  intros H. apply andb_prop in H as [H1 H2]. apply Nat.eqb_eq in H1. rewrite forallb_forall in H2.
  assert (HP : zlen p = 2 ^ Z.of_nat k) by (unfold zlen; rewrite H1, Nat2Z.inj_pow; reflexivity).
  split; [exact HP|]. intros i Hi. assert (HI : In (at_ p i) (tl p)).
  { destruct p as [|x p]; cbn [tl]; [unfold zlen in HP; cbn [length] in HP; lia|].
    unfold at_. replace (Z.to_nat i) with (S (Z.to_nat (i - 1))) by lia. cbn [nth]. apply nth_In.
    unfold zlen in HP. cbn [length] in HP. lia. }
  specialize (H2 _ HI). unfold entry_ok in H2. lia.
Qed.

(** ** Estimates from above *)

(** Rows of constants in the order of the rounds of ntt_gs_bounds *)
Fixpoint gs_est (k : nat) (b : Z) (p : list Z) : Z :=
  match k with
  | O => b
  | S k => gs_est k (Z.max (2 * b) (row_max (Nat.pow 2 k) p * (2 * b) / 4096 + 12286)) p
  end.

Lemma gs_est_mono k : forall b c p, 0 <= b <= c -> gs_est k b p <= gs_est k c p.
Proof.
  induction k as [|k IH]; intros b c p Hbc; cbn [gs_est]; [lia|].
  assert (H0 := fold_max_nonneg (map Z.abs (firstn (Nat.pow 2 k) (skipn (Nat.pow 2 k) p)))).
  assert (row_max (Nat.pow 2 k) p * (2 * b) <= row_max (Nat.pow 2 k) p * (2 * c)) by (apply Z.mul_le_mono_nonneg_l; [exact H0|lia]).
  apply IH. lia.
Qed.

Lemma gs_upper k b0 p bd : bnd_table k p -> 0 <= k -> seq_ok good_gs b0 p (fun m => k - 1 - m) k bd ->
  seq_tgt tgt_gs p (fun m => k - 1 - m) k bd -> at_ bd k <= gs_est (Z.to_nat k) b0 p.
Proof.
  intros [HL _] Hk (H0 & HB & _) HT.
  assert (G : forall m, 0 <= m -> m <= k -> gs_est (Z.to_nat (k - m)) (at_ bd m) p <= gs_est (Z.to_nat k) b0 p).
  { apply (natlike_ind (fun m => m <= k -> gs_est (Z.to_nat (k - m)) (at_ bd m) p <= gs_est (Z.to_nat k) b0 p)).
    - intros _. rewrite Z.sub_0_r, H0. lia.
    - intros m Hm IH Hmk. unfold Z.succ in *. etransitivity; [|apply IH; lia].
      replace (Z.to_nat (k - m)) with (S (Z.to_nat (k - (m + 1)))) by lia. cbn [gs_est].
      destruct (HB m ltac:(lia)) as [Hb _]. destruct (HB (m + 1) ltac:(lia)) as [Hb' _].
      apply gs_est_mono. split; [exact Hb'|].
      destruct (HT m ltac:(lia)) as (j & Hj & _ & HU).
      assert (Ht : 2 * 2 ^ (k - 1 - m) <= 2 ^ k).
      { rewrite <- Z.pow_succ_r by lia. apply Z.pow_le_mono_r; lia. }
      assert (HM := row_max_ge p (2 ^ (k - 1 - m)) j ltac:(lia) Hj ltac:(lia)).
      replace (Nat.pow 2 (Z.to_nat (k - (m + 1)))) with (Z.to_nat (2 ^ (k - 1 - m))).
      2: { apply Nat2Z.inj. rewrite Nat2Z.inj_pow, !Z2Nat.id by lia. f_equal. lia. }
      assert (HM' : Z.abs (at_ p (2 ^ (k - 1 - m) + j)) * (2 * at_ bd m) <= row_max (Z.to_nat (2 ^ (k - 1 - m))) p * (2 * at_ bd m))
        by (apply Z.mul_le_mono_nonneg_r; lia).
      clear - HU HM'. lia. }
  specialize (G k Hk ltac:(lia)). rewrite Z.sub_diag in G. exact G.
Qed.

(** For Cooley-Tukey the constants are at most 6144 in absolute value. *)
Lemma ct_upper k b0 p bd : bnd_table k p -> 0 <= k <= 11 -> 0 <= b0 <= 36864 -> seq_ok good_ct b0 p (fun m => m) k bd ->
  seq_tgt tgt_ct p (fun m => m) k bd -> 0 <= at_ bd k < 2147483647.
Proof.
  intros [HL HP] Hk Hb0 (H0 & HB & _) HT.
  assert (G : forall m, 0 <= m -> m <= k -> 2 ^ m * at_ bd m <= 5 ^ m * (36864 + 8191) - 2 ^ m * 8191).
  { apply (natlike_ind (fun m => m <= k -> 2 ^ m * at_ bd m <= 5 ^ m * (36864 + 8191) - 2 ^ m * 8191)).
    - intros _. rewrite H0. change (2 ^ 0) with 1. change (5 ^ 0) with 1. lia.
    - intros m Hm IH Hmk. specialize (IH ltac:(lia)).
      destruct (HB m ltac:(lia)) as [Hb _].
      destruct (HT m ltac:(lia)) as (j & Hj & _ & HU).
      assert (Ht : 2 * 2 ^ m <= 2 ^ k).
      { rewrite <- Z.pow_succ_r by lia. apply Z.pow_le_mono_r; lia. }
      assert (H2 : 0 < 2 ^ m) by (apply Z.pow_pos_nonneg; lia).
      destruct (HP (2 ^ m + j) ltac:(lia)) as [_ HW].
      assert (HM : Z.abs (at_ p (2 ^ m + j)) * at_ bd m <= 6144 * at_ bd m) by (apply Z.mul_le_mono_nonneg_r; lia).
      rewrite !Z.pow_succ_r by lia. change (Z.succ m) with (m + 1).
      assert (HD : 2 * at_ bd (m + 1) <= 5 * at_ bd m + 24573) by (clear - HU HM; lia).
      assert (2 ^ m * (2 * at_ bd (m + 1)) <= 2 ^ m * (5 * at_ bd m + 24573)) by (apply Z.mul_le_mono_nonneg_l; lia).
      lia. }
  specialize (G k ltac:(lia) ltac:(lia)). destruct (HB k ltac:(lia)) as [Hb _]. split; [exact Hb|].
  assert (H2 : 0 < 2 ^ k) by (apply Z.pow_pos_nonneg; lia).
  assert (H5 : 5 ^ k * 2 ^ (11 - k) <= 5 ^ 11).
  { replace (5 ^ 11) with (5 ^ k * 5 ^ (11 - k)) by (rewrite <- Z.pow_add_r by lia; f_equal; lia).
    apply Z.mul_le_mono_nonneg_l; [apply Z.pow_nonneg; lia|]. apply Z.pow_le_mono_l. lia. }
  assert (H11 : 2 ^ 11 = 2 ^ k * 2 ^ (11 - k)) by (rewrite <- Z.pow_add_r by lia; f_equal; lia).
  assert (H3 : 0 < 2 ^ (11 - k)) by (apply Z.pow_pos_nonneg; lia).
  assert (HG : 2 ^ (11 - k) * (2 ^ k * at_ bd k) <= 2 ^ (11 - k) * (5 ^ k * 45055)) by (apply Z.mul_le_mono_nonneg_l; lia).
  replace (2 ^ (11 - k) * (2 ^ k * at_ bd k)) with (2 ^ 11 * at_ bd k) in HG by (rewrite H11; ring).
  replace (2 ^ (11 - k) * (5 ^ k * 45055)) with (5 ^ k * 2 ^ (11 - k) * 45055) in HG by ring.
  change (2 ^ 11) with 2048 in HG. change (5 ^ 11) with 48828125 in H5. clear - HG H5. lia.
Qed.

(** ** An estimate from below *)

(** For each round either None, for x + y with x = y, or an index of the table and the value of
    x - y for which red(w*(x-y)) is large *)
Fixpoint gs_low (k : nat) (ws : list (option (Z * Z))) (b : Z) (p : list Z) : option Z :=
  match k, ws with
  | O, [] => Some b
  | S k, None :: ws => gs_low k ws (2 * b) p
  | S k, Some (j, v) :: ws =>
      if (Z.abs v <=? 2 * b) && (Z.of_nat (Nat.pow 2 k) <=? j) && (j <? 2 * Z.of_nat (Nat.pow 2 k))
      then gs_low k ws (Z.abs (redz (at_ p j * v))) p else None
  | _, _ => None
  end.

Lemma gs_low_mono k : forall ws b c p r, 0 <= b <= c -> gs_low k ws b p = Some r ->
  exists r', gs_low k ws c p = Some r' /\ r <= r'.
Proof.
  induction k as [|k IH]; intros ws b c p r Hbc E; destruct ws as [|[[j v]|] ws]; cbn [gs_low] in E |- *; try discriminate.
  - injection E as <-. exists c. split; [reflexivity|lia].
  - destruct (_ && _) eqn:EC in E; [|discriminate]. replace ((Z.abs v <=? 2 * c) && (Z.of_nat (Nat.pow 2 k) <=? j) && (j <? 2 * Z.of_nat (Nat.pow 2 k))) with true by lia.
    exists r. split; [exact E|lia].
  - apply (IH ws (2 * b)); [lia|exact E].
Qed.

Lemma gs_lower k b0 p bd ws r : bnd_table k p -> 0 <= k -> seq_ok good_gs b0 p (fun m => k - 1 - m) k bd ->
  gs_low (Z.to_nat k) ws b0 p = Some r -> r <= at_ bd k.
Proof.
  intros HP Hk (H0 & HB & HG) E.
  assert (G : forall m, 0 <= m -> m <= k -> exists ws r', gs_low (Z.to_nat (k - m)) ws (at_ bd m) p = Some r' /\ r <= r').
  { apply (natlike_ind (fun m => m <= k -> exists ws r', gs_low (Z.to_nat (k - m)) ws (at_ bd m) p = Some r' /\ r <= r')).
    - intros _. rewrite Z.sub_0_r, H0. exists ws, r. split; [exact E|lia].
    - intros m Hm IH Hmk. destruct (IH ltac:(lia)) as (ws' & r' & E' & Hr). unfold Z.succ in *.
      replace (Z.to_nat (k - m)) with (S (Z.to_nat (k - (m + 1)))) in E' by lia.
      destruct (HB m ltac:(lia)) as [Hb _]. destruct (HG m ltac:(lia)) as [_ HG'].
      assert (HN : Z.of_nat (Nat.pow 2 (Z.to_nat (k - (m + 1)))) = 2 ^ (k - 1 - m)).
      { rewrite Nat2Z.inj_pow, Z2Nat.id by lia. f_equal. lia. }
      destruct ws' as [|[[j v]|] ws']; cbn [gs_low] in E'; [discriminate| |].
      + destruct (_ && _) eqn:EC in E'; [|discriminate]. rewrite HN in EC.
        destruct (HG' (j - 2 ^ (k - 1 - m)) ltac:(lia)) as (S & _).
        replace (2 ^ (k - 1 - m) + (j - 2 ^ (k - 1 - m))) with j in S by lia.
        destruct (S (v / 2) (v / 2 - v) (at_ p j) ltac:(lia) ltac:(lia) eq_refl) as [_ S2].
        replace (v / 2 - (v / 2 - v)) with v in S2 by lia.
        destruct (gs_low_mono _ _ _ (at_ bd (m + 1)) _ _ (conj (Z.abs_nonneg _) S2) E') as (r2 & E2 & Hr2).
        exists ws', r2. split; [exact E2|lia].
      + assert (H1 : 0 < 2 ^ (k - 1 - m)) by (apply Z.pow_pos_nonneg; lia).
        destruct (HG' 0 ltac:(lia)) as (_ & S & _).
        destruct (gs_low_mono _ _ (2 * at_ bd m) (at_ bd (m + 1)) _ _ ltac:(lia) E') as (r2 & E2 & Hr2).
        exists ws', r2. split; [exact E2|lia]. }
  destruct (G k Hk ltac:(lia)) as (ws' & r' & E' & Hr). rewrite Z.sub_diag in E'. cbn [Z.to_nat gs_low] in E'.
  destruct ws'; [|destruct o; discriminate]. injection E' as <-. exact Hr.
Qed.
