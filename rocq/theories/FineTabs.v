(** Computing the bounds of FineAll from a table. *)

From Coq Require Import ZArith List Bool Lia.
From Verif Require Import CSem Spec Loops ModelRed FineBounds FineGen FineAll.
Import ListNotations.
Open Scope Z_scope.

(** Row [m] of the table: entries 2^m to 2^(m+1)-1 *)
Definition rows (k : nat) (p : list Z) : list (list Z) := map (fun m => firstn (2 ^ m) (skipn (2 ^ m) p)) (seq 0 k).

Fixpoint levels (next : list Z -> list Z -> list Z) (b : list Z) (rs : list (list Z)) : list (list Z) :=
  match rs with [] => [b] | r :: rs => b :: levels next (next b r) rs end.

Fixpoint pairs (x : list Z) : list Z :=
  match x with a :: b :: x => (a + b) :: pairs x | _ => [] end.

Definition next_ctA (b r : list Z) : list Z := let f := map2 grow b r in f ++ f.
Definition next_ctB (b r : list Z) : list Z := dup (map2 grow b r).
Definition next_gsA (b r : list Z) : list Z := gs_next b r.
Definition next_gsB (b r : list Z) : list Z := map2 keep (pairs b) r.

Definition ctA_levels (k : nat) (p : list Z) (M : Z) := levels next_ctA [M] (rows k p).
Definition ctB_levels (k : nat) (p : list Z) (M : Z) := levels next_ctB [M] (rows k p).
Definition gsA_levels (k : nat) (p : list Z) (M : Z) := levels next_gsA (repeat M (2 ^ k)) (rev (rows k p)).
Definition gsB_levels (k : nat) (p : list Z) (M : Z) := levels next_gsB (repeat M (2 ^ k)) (rev (rows k p)).
Definition all_small (C : Z) (L : list (list Z)) : bool := forallb (forallb (small_to C)) L.

(** ** Rows *)
Lemma pow2_nat m : Z.of_nat (2 ^ m) = 2 ^ Z.of_nat m.
Proof. rewrite Nat2Z.inj_pow. reflexivity. Qed.
Lemma rows_len k p : length (rows k p) = k.
Proof. unfold rows. rewrite map_length. apply seq_length. Qed.
Lemma rows_nth k p m : (m < k)%nat -> nth m (rows k p) [] = firstn (2 ^ m) (skipn (2 ^ m) p).
Proof.
  intros H. unfold rows. rewrite (nth_indep _ [] ((fun m => firstn (2 ^ m) (skipn (2 ^ m) p)) O)).
  - rewrite (map_nth (fun m => firstn (2 ^ m) (skipn (2 ^ m) p)) (seq 0 k) O m). rewrite seq_nth by exact H. reflexivity.
  - rewrite map_length, seq_length. exact H.
Qed.
Lemma row_length k p m : zlen p = 2 ^ Z.of_nat k -> (m < k)%nat -> zlen (nth m (rows k p) []) = 2 ^ Z.of_nat m.
Proof.
  intros Lp H. rewrite rows_nth by exact H. unfold zlen in *. rewrite firstn_length, skipn_length.
  assert (E := pow2_nat m). assert (X : 2 ^ Z.of_nat (S m) <= 2 ^ Z.of_nat k) by (apply Z.pow_le_mono_r; lia).
  rewrite Nat2Z.inj_succ, Z.pow_succ_r in X by lia. lia.
Qed.
Lemma row_at k p m j : (m < k)%nat -> 0 <= j < 2 ^ Z.of_nat m -> at_ (nth m (rows k p) []) j = at_ p (2 ^ Z.of_nat m + j).
Proof.
  intros H Hj. rewrite rows_nth by exact H. rewrite at_firstn by (rewrite pow2_nat; exact Hj).
  rewrite at_skipn by lia. rewrite pow2_nat. f_equal. lia.
Qed.

(** ** Levels *)
Lemma levels_len next rs : forall b, length (levels next b rs) = S (length rs).
Proof. induction rs as [|r rs IH]; intros b; [reflexivity|]. cbn [levels length]. rewrite IH. reflexivity. Qed.
Lemma levels_0 next b rs : nth 0 (levels next b rs) [] = b.
Proof. destruct rs; reflexivity. Qed.
Lemma levels_S next rs : forall b i, (i < length rs)%nat ->
  nth (S i) (levels next b rs) [] = next (nth i (levels next b rs) []) (nth i rs []).
Proof.
  induction rs as [|r rs IH]; intros b i Hi; [cbn in Hi; lia|]. cbn [levels]. destruct i as [|i].
  - cbn [nth]. apply levels_0.
  - cbn [length] in Hi. change (nth (S (S i)) (b :: levels next (next b r) rs) []) with (nth (S i) (levels next (next b r) rs) []).
    rewrite IH by lia. reflexivity.
Qed.
Lemma all_small_at C L i j : all_small C L = true -> (i < length L)%nat -> 0 <= j < zlen (nth i L []) ->
  0 <= at_ (nth i L []) j <= C.
Proof.
  intros H Hi Hj. unfold all_small in H. rewrite forallb_forall in H. specialize (H _ (nth_In L [] Hi)).
  rewrite forallb_forall in H. unfold zlen in Hj.
  assert (X : small_to C (at_ (nth i L []) j) = true) by (apply H; unfold at_; apply nth_In; lia).
  unfold small_to in X. clear - X. lia.
Qed.

(** ** Lists *)
Lemma pairs_spec x : forall m, zlen x = 2 * m -> 0 <= m ->
  zlen (pairs x) = m /\ forall j, 0 <= j < m -> at_ (pairs x) j = at_ x (2 * j) + at_ x (2 * j + 1).
Proof.
  assert (G : forall f x m, (length x <= f)%nat -> zlen x = 2 * m -> 0 <= m ->
    zlen (pairs x) = m /\ forall j, 0 <= j < m -> at_ (pairs x) j = at_ x (2 * j) + at_ x (2 * j + 1)).
  { clear x. induction f as [|f IH]; intros x m Hf Hx Hm.
    - destruct x; [|cbn [length] in Hf; lia]. unfold zlen in *. cbn [length pairs] in *. split; [lia|]. intros; lia.
    - destruct x as [|u [|v x]].
      + unfold zlen in *. cbn [length pairs] in *. split; [lia|]. intros; lia.
      + unfold zlen in Hx. cbn [length] in Hx. lia.
      + unfold zlen in Hx. cbn [length] in Hx, Hf. rewrite !Nat2Z.inj_succ in Hx.
        destruct (IH x (m - 1) ltac:(lia) ltac:(unfold zlen; lia) ltac:(lia)) as (L & V). cbn [pairs].
        split; [unfold zlen in *; cbn [length]; lia|]. intros j Hj.
        destruct (Z.eq_dec j 0) as [->|N]; [reflexivity|].
        rewrite at_cons by lia. rewrite V by lia. rewrite (at_cons u) by lia. rewrite (at_cons v) by lia.
        rewrite (at_cons u) by lia. rewrite (at_cons v) by lia. f_equal; f_equal; lia. }
  intros m. apply (G (length x)). lia.
Qed.

Lemma next_ctA_spec b r h : zlen b = h -> zlen r = h ->
  zlen (next_ctA b r) = 2 * h
  /\ forall j, 0 <= j < h -> at_ (next_ctA b r) j = grow (at_ b j) (at_ r j) /\ at_ (next_ctA b r) (j + h) = grow (at_ b j) (at_ r j).
Proof.
  intros Lb Lr. unfold next_ctA. assert (L : zlen (map2 grow b r) = h) by (rewrite map2_len; lia). split.
  - unfold zlen in *. rewrite app_length. lia.
  - intros j Hj. rewrite at_app_l by lia. rewrite at_app_r by lia. rewrite L.
    replace (j + h - h) with j by lia. rewrite at_map2 by lia. auto.
Qed.
Lemma next_ctB_spec b r h : zlen b = h -> zlen r = h ->
  zlen (next_ctB b r) = 2 * h
  /\ forall j e, 0 <= j < h -> 0 <= e <= 1 -> at_ (next_ctB b r) (2 * j + e) = grow (at_ b j) (at_ r j).
Proof.
  intros Lb Lr. unfold next_ctB. assert (L : zlen (map2 grow b r) = h) by (rewrite map2_len; lia). split.
  - rewrite dup_len. lia.
  - intros j e Hj He. rewrite at_dup by lia. apply at_map2; lia.
Qed.
Lemma next_gsA_at b r j : zlen b = 2 * zlen r -> 0 <= j < zlen r ->
  at_ (next_gsA b r) j = keep (at_ b j + at_ b (j + zlen r)) (at_ r j).
Proof.
  intros Hb Hj. unfold next_gsA, gs_next. unfold zlen in *.
  assert (L1 : length (firstn (length r) b) = length r) by (rewrite firstn_length; lia).
  assert (L2 : length (skipn (length r) b) = length r) by (rewrite skipn_length; lia).
  assert (L3 : zlen (map2 Z.add (firstn (length r) b) (skipn (length r) b)) = zlen r).
  { rewrite map2_len; unfold zlen; lia. }
  unfold zlen in L3.
  rewrite at_map2 by (unfold zlen; lia). rewrite at_map2 by (unfold zlen; lia).
  rewrite at_firstn, at_skipn by lia. reflexivity.
Qed.
Lemma next_gsA_len b r : zlen b = 2 * zlen r -> zlen (next_gsA b r) = zlen r.
Proof.
  intros Hb. unfold next_gsA, gs_next, zlen in *.
  assert (L1 : length (firstn (length r) b) = length r) by (rewrite firstn_length; lia).
  assert (L2 : length (skipn (length r) b) = length r) by (rewrite skipn_length; lia).
  assert (L3 : zlen (map2 Z.add (firstn (length r) b) (skipn (length r) b)) = zlen r).
  { rewrite map2_len; unfold zlen; lia. }
  unfold zlen in L3. pose proof (map2_len keep (map2 Z.add (firstn (length r) b) (skipn (length r) b)) r) as X.
  unfold zlen in X. rewrite X by lia. exact L3.
Qed.
Lemma next_gsB_spec b r h : zlen b = 2 * h -> zlen r = h ->
  zlen (next_gsB b r) = h
  /\ forall j, 0 <= j < h -> at_ (next_gsB b r) j = keep (at_ b (2 * j) + at_ b (2 * j + 1)) (at_ r j).
Proof.
  intros Lb Lr. assert (H0 : 0 <= h) by (unfold zlen in Lr; lia). destruct (pairs_spec b h Lb H0) as (L & V).
  unfold next_gsB. split.
  - rewrite map2_len; lia.
  - intros j Hj. rewrite at_map2 by lia. rewrite V by lia. reflexivity.
Qed.

(** ** Cooley-Tukey *)
Section Up.
Variables (next : list Z -> list Z -> list Z) (k : nat) (p : list Z) (M : Z).
Hypothesis Lp : zlen p = 2 ^ Z.of_nat k.
Hypothesis next_len : forall b r h, zlen b = h -> zlen r = h -> zlen (next b r) = 2 * h.

Lemma up_len m : (m <= k)%nat -> zlen (nth m (levels next [M] (rows k p)) []) = 2 ^ Z.of_nat m.
Proof.
  induction m as [|m IH]; intros Hm.
  - rewrite levels_0. reflexivity.
  - rewrite levels_S by (rewrite rows_len; lia). rewrite (next_len _ _ (2 ^ Z.of_nat m)).
    + rewrite Nat2Z.inj_succ, Z.pow_succ_r by lia. reflexivity.
    + apply IH. lia.
    + apply row_length; [exact Lp|lia].
Qed.
Definition up_bd (l j : Z) : Z := at_ (nth (Z.to_nat l) (levels next [M] (rows k p)) []) j.
Lemma up_small C : all_small C (levels next [M] (rows k p)) = true ->
  forall l j, 0 <= l <= Z.of_nat k -> 0 <= j < 2 ^ l -> 0 <= up_bd l j <= C.
Proof.
  intros H l j Hl Hj. unfold up_bd. apply all_small_at; [exact H|rewrite levels_len, rows_len; lia|].
  rewrite up_len by lia. rewrite Z2Nat.id by lia. exact Hj.
Qed.
Lemma up_next l : 0 <= l < Z.of_nat k -> exists b r,
  b = nth (Z.to_nat l) (levels next [M] (rows k p)) [] /\ nth (Z.to_nat (l + 1)) (levels next [M] (rows k p)) [] = next b r
  /\ zlen b = 2 ^ l /\ zlen r = 2 ^ l /\ forall j, 0 <= j < 2 ^ l -> at_ r j = at_ p (2 ^ l + j).
Proof.
  intros Hl. exists (nth (Z.to_nat l) (levels next [M] (rows k p)) []), (nth (Z.to_nat l) (rows k p) []).
  split; [reflexivity|]. replace (Z.to_nat (l + 1)) with (S (Z.to_nat l)) by lia.
  split; [apply levels_S; rewrite rows_len; lia|].
  split; [rewrite up_len by lia; rewrite Z2Nat.id by lia; reflexivity|].
  split; [rewrite (row_length k p) by (exact Lp || lia); rewrite Z2Nat.id by lia; reflexivity|].
  intros j Hj. rewrite row_at by (rewrite ?Z2Nat.id by lia; lia). rewrite Z2Nat.id by lia. reflexivity.
Qed.
End Up.

Lemma ctA_len b r h : zlen b = h -> zlen r = h -> zlen (next_ctA b r) = 2 * h.
Proof. intros A B. apply next_ctA_spec; assumption. Qed.
Lemma ctB_len b r h : zlen b = h -> zlen r = h -> zlen (next_ctB b r) = 2 * h.
Proof. intros A B. apply next_ctB_spec; assumption. Qed.
Lemma up_bd0 next k p M : up_bd next k p M 0 0 = M.
Proof. unfold up_bd. change (Z.to_nat 0) with O. rewrite levels_0. reflexivity. Qed.

(** ** Gentleman-Sande *)
Section Down.
Variables (next : list Z -> list Z -> list Z) (k : nat) (p : list Z) (M : Z).
Hypothesis Lp : zlen p = 2 ^ Z.of_nat k.
Hypothesis next_len : forall b r h, zlen b = 2 * h -> zlen r = h -> zlen (next b r) = h.
Let L := levels next (repeat M (2 ^ k)) (rev (rows k p)).

Lemma rev_row m : (m < k)%nat -> nth m (rev (rows k p)) [] = nth (k - 1 - m) (rows k p) [].
Proof. intros H. rewrite rev_nth by (rewrite rows_len; exact H). rewrite rows_len. f_equal. lia. Qed.
Lemma down_len m : (m <= k)%nat -> zlen (nth m L []) = 2 ^ (Z.of_nat k - Z.of_nat m).
Proof.
  unfold L. induction m as [|m IH]; intros Hm.
  - rewrite levels_0. unfold zlen. rewrite repeat_length. rewrite pow2_nat. f_equal. lia.
  - rewrite levels_S by (rewrite rev_length, rows_len; lia). rewrite rev_row by lia.
    rewrite (next_len _ _ (2 ^ Z.of_nat (k - 1 - m))).
    + f_equal. lia.
    + rewrite IH by lia. rewrite <- Z.pow_succ_r by lia. f_equal. lia.
    + apply row_length; [exact Lp|lia].
Qed.
Definition down_bd (l j : Z) : Z := at_ (nth (Z.to_nat (Z.of_nat k - l)) L []) j.
Lemma down_small C : all_small C L = true ->
  forall l j, 0 <= l <= Z.of_nat k -> 0 <= j < 2 ^ l -> 0 <= down_bd l j <= C.
Proof.
  intros H l j Hl Hj. unfold down_bd. apply all_small_at; [exact H|unfold L; rewrite levels_len, rev_length, rows_len; lia|].
  rewrite down_len by lia. rewrite Z2Nat.id by lia. replace (Z.of_nat k - (Z.of_nat k - l)) with l by lia. exact Hj.
Qed.
Lemma down_next l : 0 <= l < Z.of_nat k -> exists b r,
  b = nth (Z.to_nat (Z.of_nat k - (l + 1))) L [] /\ nth (Z.to_nat (Z.of_nat k - l)) L [] = next b r
  /\ zlen b = 2 * 2 ^ l /\ zlen r = 2 ^ l /\ forall j, 0 <= j < 2 ^ l -> at_ r j = at_ p (2 ^ l + j).
Proof.
  intros Hl. exists (nth (Z.to_nat (Z.of_nat k - (l + 1))) L []), (nth (Z.to_nat l) (rows k p) []).
  split; [reflexivity|].
  replace (Z.to_nat (Z.of_nat k - l)) with (S (Z.to_nat (Z.of_nat k - (l + 1)))) by lia.
  split.
  { unfold L. rewrite levels_S by (rewrite rev_length, rows_len; lia). rewrite rev_row by lia. do 2 f_equal. lia. }
  split.
  { rewrite down_len by lia. rewrite Z2Nat.id by lia. rewrite <- Z.pow_succ_r by lia. f_equal. lia. }
  split; [rewrite (row_length k p) by (exact Lp || lia); rewrite Z2Nat.id by lia; reflexivity|].
  intros j Hj. rewrite row_at by (rewrite ?Z2Nat.id by lia; lia). rewrite Z2Nat.id by lia. reflexivity.
Qed.
Lemma down_start j : 0 <= j < 2 ^ Z.of_nat k -> down_bd (Z.of_nat k) j = M.
Proof.
  intros Hj. unfold down_bd. rewrite Z.sub_diag. change (Z.to_nat 0) with O. unfold L. rewrite levels_0.
  unfold at_. rewrite <- pow2_nat in Hj. rewrite (nth_indep _ 0 M) by (rewrite repeat_length; lia). apply nth_repeat.
Qed.
End Down.

Lemma gsA_len b r h : zlen b = 2 * h -> zlen r = h -> zlen (next_gsA b r) = h.
Proof. intros A B. rewrite next_gsA_len by lia. exact B. Qed.
Lemma gsB_len b r h : zlen b = 2 * h -> zlen r = h -> zlen (next_gsB b r) = h.
Proof. intros A B. apply (next_gsB_spec b r h A B). Qed.

(** ** The eight transforms *)
Section All.
Variables (k : nat) (p a : list Z) (M C : Z).
Hypothesis Hk : (k <= 31)%nat.
Hypothesis Lp : zlen p = 2 ^ Z.of_nat k.
Hypothesis Ip : forall i, 1 <= i < 2 ^ Z.of_nat k -> -6144 <= at_ p i <= 6144.
Hypothesis La : zlen a = 2 ^ Z.of_nat k.
Hypothesis Ia : forall i, 0 <= i < 2 ^ Z.of_nat k -> Z.abs (at_ a i) <= M.
Hypothesis HC : C <= 1000000000.
Let K : 0 <= Z.of_nat k <= 31. Proof. lia. Qed.

Lemma ctA_safe : all_small C (ctA_levels k p M) = true ->
  (unit_rows (Z.of_nat k) p -> done (Z.of_nat k) C (ntt_red_ct_rev2std a (2 ^ Z.of_nat k) p))
  /\ done (Z.of_nat k) C (mulntt_red_ct_rev2std a (2 ^ Z.of_nat k) p).
Proof.
  intros H. assert (S1 := up_small next_ctA k p M Lp ctA_len C H).
  assert (S2 : M <= up_bd next_ctA k p M 0 0) by (rewrite up_bd0; lia).
  assert (S3 : forall l j, 0 <= l < Z.of_nat k -> 0 <= j < 2 ^ l ->
    grow (up_bd next_ctA k p M l j) (at_ p (2 ^ l + j)) <= up_bd next_ctA k p M (l + 1) j
    /\ grow (up_bd next_ctA k p M l j) (at_ p (2 ^ l + j)) <= up_bd next_ctA k p M (l + 1) (j + 2 ^ l)).
  { intros l j Hl Hj. destruct (up_next next_ctA k p M Lp ctA_len l Hl) as (b & r & Eb & En & Lb & Lr & Vr).
    destruct (next_ctA_spec b r (2 ^ l) Lb Lr) as (_ & V). destruct (V j Hj) as (V1 & V2).
    unfold up_bd. rewrite En, <- Eb, V1, V2, Vr by exact Hj. lia. }
  split.
  - intros U. exact (ct_r2s_fine _ _ p a M C K Lp Ip La Ia S1 HC S2 S3 U).
  - exact (mulct_r2s_fine _ _ p a M C K Lp Ip La Ia S1 HC S2 S3).
Qed.
Lemma ctB_safe : all_small C (ctB_levels k p M) = true ->
  (unit_rows (Z.of_nat k) p -> done (Z.of_nat k) C (ntt_red_ct_std2rev a (2 ^ Z.of_nat k) p))
  /\ done (Z.of_nat k) C (mulntt_red_ct_std2rev a (2 ^ Z.of_nat k) p).
Proof.
  intros H. assert (S1 := up_small next_ctB k p M Lp ctB_len C H).
  assert (S2 : M <= up_bd next_ctB k p M 0 0) by (rewrite up_bd0; lia).
  assert (S3 : forall l j, 0 <= l < Z.of_nat k -> 0 <= j < 2 ^ l ->
    grow (up_bd next_ctB k p M l j) (at_ p (2 ^ l + j)) <= up_bd next_ctB k p M (l + 1) (2 * j)
    /\ grow (up_bd next_ctB k p M l j) (at_ p (2 ^ l + j)) <= up_bd next_ctB k p M (l + 1) (2 * j + 1)).
  { intros l j Hl Hj. destruct (up_next next_ctB k p M Lp ctB_len l Hl) as (b & r & Eb & En & Lb & Lr & Vr).
    destruct (next_ctB_spec b r (2 ^ l) Lb Lr) as (_ & V).
    unfold up_bd. rewrite En, <- Eb. rewrite <- (Z.add_0_r (2 * j)) at 1. rewrite !V by lia. rewrite Vr by exact Hj. lia. }
  split.
  - intros U. exact (ct_s2r_fine _ _ p a M C K Lp Ip La Ia S1 HC S2 S3 U).
  - exact (mulct_s2r_fine _ _ p a M C K Lp Ip La Ia S1 HC S2 S3).
Qed.
Lemma gsA_safe : all_small C (gsA_levels k p M) = true ->
  done (Z.of_nat k) C (ntt_red_gs_std2rev a (2 ^ Z.of_nat k) p)
  /\ done (Z.of_nat k) C (nttmul_red_gs_std2rev a (2 ^ Z.of_nat k) p).
Proof.
  intros H. assert (S1 := down_small next_gsA k p M Lp gsA_len C H).
  assert (S2 : forall j, 0 <= j < 2 ^ Z.of_nat k -> M <= down_bd next_gsA k p M (Z.of_nat k) j)
    by (intros j Hj; rewrite (down_start next_gsA k p M Lp gsA_len) by exact Hj; lia).
  assert (S3 : forall l j, 0 <= l < Z.of_nat k -> 0 <= j < 2 ^ l ->
    keep (down_bd next_gsA k p M (l + 1) j + down_bd next_gsA k p M (l + 1) (j + 2 ^ l)) (at_ p (2 ^ l + j))
    <= down_bd next_gsA k p M l j).
  { intros l j Hl Hj. destruct (down_next next_gsA k p M Lp gsA_len l Hl) as (b & r & Eb & En & Lb & Lr & Vr).
    unfold down_bd. rewrite En, <- Eb. rewrite next_gsA_at by lia. rewrite Lr, Vr by exact Hj. lia. }
  split.
  - exact (gs_s2r_fine _ _ p a M C K Lp Ip La Ia S1 HC S2 S3).
  - exact (mulgs_s2r_fine _ _ p a M C K Lp Ip La Ia S1 HC S2 S3).
Qed.
Lemma gsB_safe : all_small C (gsB_levels k p M) = true ->
  done (Z.of_nat k) C (ntt_red_gs_rev2std a (2 ^ Z.of_nat k) p)
  /\ done (Z.of_nat k) C (nttmul_red_gs_rev2std a (2 ^ Z.of_nat k) p).
Proof.
  intros H. assert (S1 := down_small next_gsB k p M Lp gsB_len C H).
  assert (S2 : forall j, 0 <= j < 2 ^ Z.of_nat k -> M <= down_bd next_gsB k p M (Z.of_nat k) j)
    by (intros j Hj; rewrite (down_start next_gsB k p M Lp gsB_len) by exact Hj; lia).
  assert (S3 : forall l j, 0 <= l < Z.of_nat k -> 0 <= j < 2 ^ l ->
    keep (down_bd next_gsB k p M (l + 1) (2 * j) + down_bd next_gsB k p M (l + 1) (2 * j + 1)) (at_ p (2 ^ l + j))
    <= down_bd next_gsB k p M l j).
  { intros l j Hl Hj. destruct (down_next next_gsB k p M Lp gsB_len l Hl) as (b & r & Eb & En & Lb & Lr & Vr).
    destruct (next_gsB_spec b r (2 ^ l) Lb Lr) as (_ & V).
    unfold down_bd. rewrite En, <- Eb. rewrite V by exact Hj. rewrite Vr by exact Hj. lia. }
  split.
  - exact (gs_r2s_fine _ _ p a M C K Lp Ip La Ia S1 HC S2 S3).
  - exact (mulgs_r2s_fine _ _ p a M C K Lp Ip La Ia S1 HC S2 S3).
Qed.
End All.
