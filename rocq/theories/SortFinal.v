(** Lemmas behind [PropSort]. *)

From Coq Require Import ZArith List Bool Lia Permutation Sorted.
From Verif Require Import CSem Spec Loops ModelSort SortElem.
Import ListNotations.
Open Scope Z_scope.

Lemma sorted_of (l : list Z) :
  (forall i j, (i <= j < length l)%nat -> nth i l 0 <= nth j l 0) -> StronglySorted Z.le l.
Proof.
  induction l as [|x l IH]; intros H; constructor.
  - apply IH. intros i j Hij. apply (H (S i) (S j)). cbn. lia.
  - rewrite Forall_forall. intros y Hy. apply (In_nth _ _ 0) in Hy. destruct Hy as (m & Hm & <-).
    apply (H O (S m)). cbn. lia.
Qed.

Lemma sort_sorts_L :
forall a n, 0 <= n < 2 ^ 32 -> n <= Z.of_nat (length a) ->
  exists b, sort a n = Ok b
    /\ Permutation (firstn (Z.to_nat n) a) (firstn (Z.to_nat n) b)
    /\ StronglySorted Z.le (firstn (Z.to_nat n) b)
    /\ skipn (Z.to_nat n) b = skipn (Z.to_nat n) a.
Proof.
  change (2 ^ 32) with 4294967296. intros a n Hn HL. unfold sort.
  destruct (sort_array_ok (fuel n) a 0 n) as (b & E & HS & HQ); [lia|lia|unfold zlen; lia|unfold fuel; lia|].
  exists b. split; [exact E|].
  destruct (shuffles_perm a b 0 n) as (HP & _ & HR); [lia|lia|unfold zlen; lia|exact HS|].
  change (Z.to_nat 0) with O in HP. cbn [skipn] in HP. split; [symmetry; exact HP|].
  assert (HLb : zlen b = zlen a) by apply HS. unfold zlen in HLb. split; [|exact HR].
  apply sorted_of. intros i j Hij. rewrite firstn_length in Hij.
  assert (X := seg_nth b 0 n). change (Z.to_nat 0) with O in X. cbn [skipn] in X. unfold zlen in X.
  rewrite !X by lia. apply HQ; lia.
Qed.
