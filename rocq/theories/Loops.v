(** Rules for reasoning about arrays and loops of [CSem]. *)

From Coq Require Import ZArith List Bool Lia.
From Verif Require Import CSem Spec.
Import ListNotations.
Open Scope Z_scope.

Ltac Zify.zify_post_hook ::= Z.div_mod_to_equations.

(** ** Arrays *)

Lemma zlen_nonneg a : 0 <= zlen a.
Proof. unfold zlen. lia. Qed.

Lemma rd_ok a i : 0 <= i < zlen a -> rd a i = Ok (at_ a i).
Proof.
  unfold rd, at_, zlen. intros H.
  destruct (Z.ltb_spec i 0); [lia|].
  rewrite (nth_error_nth' a 0) by lia. reflexivity.
Qed.

Lemma rd_oob a i : ~ (0 <= i < zlen a) -> rd a i = Err OutOfBounds.
Proof.
  unfold rd, zlen. intros H.
  destruct (Z.ltb_spec i 0); [reflexivity|].
  destruct (nth_error a (Z.to_nat i)) eqn:E; [|reflexivity].
  assert (nth_error a (Z.to_nat i) <> None) by congruence.
  apply nth_error_Some in H1. lia.
Qed.

(** The updated list as a total function. *)
Fixpoint lupd (a : list Z) (i : nat) (v : Z) : list Z :=
  match a with
  | [] => []
  | x :: l => match i with O => v :: l | S j => x :: lupd l j v end
  end.
Definition aset (a : list Z) (i : Z) (v : Z) : list Z := lupd a (Z.to_nat i) v.

Lemma upd_lupd a i v : (i < length a)%nat -> upd a i v = Some (lupd a i v).
Proof.
  revert i. induction a; simpl; intros; [lia|].
  destruct i; [reflexivity|]. rewrite IHa by lia. reflexivity.
Qed.

Lemma lupd_length a i v : length (lupd a i v) = length a.
Proof. revert i. induction a; simpl; intros; [reflexivity|]. destruct i; simpl; auto. Qed.

Lemma lupd_nth a i v j d :
  (i < length a)%nat -> nth j (lupd a i v) d = if Nat.eqb i j then v else nth j a d.
Proof.
  revert i j. induction a; simpl; intros; [lia|].
  destruct i, j; simpl; auto. apply IHa. lia.
Qed.

Lemma upd_oob a i v : (length a <= i)%nat -> upd a i v = None.
Proof.
  revert i. induction a; simpl; intros; [reflexivity|].
  destruct i; [lia|]. rewrite IHa by lia. reflexivity.
Qed.

Lemma wr_ok a i v : 0 <= i < zlen a -> wr a i v = Ok (aset a i v).
Proof.
  unfold wr, zlen, aset. intros.
  destruct (Z.ltb_spec i 0); [lia|].
  rewrite upd_lupd by lia. reflexivity.
Qed.

Lemma aset_len a i v : zlen (aset a i v) = zlen a.
Proof. unfold zlen, aset. now rewrite lupd_length. Qed.

Lemma at_aset_same a i v : 0 <= i < zlen a -> at_ (aset a i v) i = v.
Proof.
  unfold at_, aset, zlen. intros. rewrite lupd_nth by lia.
  now rewrite Nat.eqb_refl.
Qed.

Lemma at_aset_other a i j v :
  0 <= i < zlen a -> 0 <= j -> i <> j -> at_ (aset a i v) j = at_ a j.
Proof.
  unfold at_, aset, zlen. intros. rewrite lupd_nth by lia.
  destruct (Nat.eqb_spec (Z.to_nat i) (Z.to_nat j)); [lia|reflexivity].
Qed.

Lemma list_ext a b :
  zlen a = zlen b -> (forall i, 0 <= i < zlen a -> at_ a i = at_ b i) -> a = b.
Proof.
  unfold zlen, at_. intros HL H. apply nth_ext with (d := 0) (d' := 0); [lia|].
  intros n Hn. specialize (H (Z.of_nat n)). rewrite Nat2Z.id in H. apply H. lia.
Qed.

Lemma all_in_at lo hi a i : all_in lo hi a -> 0 <= i < zlen a -> lo <= at_ a i <= hi.
Proof. unfold all_in, at_, zlen. intros H Hi. apply H, nth_In. lia. Qed.

Lemma all_in_of lo hi a :
  (forall i, 0 <= i < zlen a -> lo <= at_ a i <= hi) -> all_in lo hi a.
Proof.
  unfold all_in, at_, zlen. intros H v Hv.
  destruct (In_nth a v 0 Hv) as [n [Hn <-]].
  specialize (H (Z.of_nat n)). rewrite Nat2Z.id in H. apply H. lia.
Qed.

(** ** Loops *)

Lemma cfor_rule {S} (I : Z -> S -> Prop) (m : Z -> Z)
      (cond : Z -> bool) (next : Z -> Z) (body : Z -> S -> res S) :
  (forall i st, I i st -> cond i = true ->
     exists st', body i st = Ok st' /\ I (next i) st' /\ m (next i) < m i) ->
  (forall i st, I i st -> cond i = true -> 0 < m i) ->
  forall f i st,
    I i st -> (Z.to_nat (m i) < f)%nat ->
    exists i' st', cfor f i cond next body st = Ok st' /\ I i' st' /\ cond i' = false.
Proof.
  intros Hb Hm. induction f; intros i st HI Hf; [lia|]. simpl.
  destruct (cond i) eqn:E; [|eauto].
  destruct (Hb i st HI E) as (st' & -> & HI' & Hlt). simpl.
  specialize (Hm i st HI E). apply IHf; [assumption|lia].
Qed.

(** A counted loop: the [c]-th iteration runs the body at [idx c]. *)
Lemma cfor_count {S} (J : Z -> S -> Prop) (C : Z) (idx : Z -> Z)
      (cond : Z -> bool) (next : Z -> Z) (body : Z -> S -> res S) :
  0 <= C ->
  (forall c, 0 <= c < C -> cond (idx c) = true) ->
  cond (idx C) = false ->
  (forall c, 0 <= c < C -> next (idx c) = idx (c + 1)) ->
  (forall c st, 0 <= c < C -> J c st ->
     exists st', body (idx c) st = Ok st' /\ J (c + 1) st') ->
  forall f i0 st, i0 = idx 0 -> (Z.to_nat C < f)%nat -> J 0 st ->
    exists st', cfor f i0 cond next body st = Ok st' /\ J C st'.
Proof.
  intros HC Hc1 Hc2 Hn Hb f i0 st -> Hf HJ.
  assert (G : forall f c st, 0 <= c <= C -> (Z.to_nat (C - c) < f)%nat -> J c st ->
    exists st', cfor f (idx c) cond next body st = Ok st' /\ J C st').
  { clear f st Hf HJ. induction f; intros c st Hc Hf HJ; [lia|]. simpl.
    destruct (Z.eq_dec c C) as [->|Hne].
    - rewrite Hc2. eauto.
    - rewrite Hc1 by lia.
      destruct (Hb c st) as (st' & -> & HJ'); [lia|assumption|]. simpl.
      rewrite Hn by lia. apply IHf; [lia|lia|assumption]. }
  apply G; [lia| |assumption]. replace (C - 0) with C by lia. assumption.
Qed.

Lemma cwhile_rule {S} (I : S -> Prop) (m : S -> Z) (cond : S -> bool) (body : S -> res S) :
  (forall st, I st -> cond st = true ->
     exists st', body st = Ok st' /\ I st' /\ m st' < m st /\ 0 < m st) ->
  forall f st, I st -> (Z.to_nat (m st) < f)%nat ->
    exists st', cwhile f cond body st = Ok st' /\ I st' /\ cond st' = false.
Proof.
  intros Hb. induction f; intros st HI Hf; [lia|]. simpl.
  destruct (cond st) eqn:E; [|eauto].
  destruct (Hb st HI E) as (st' & -> & HI' & Hlt & Hp). simpl.
  apply IHf; [assumption|lia].
Qed.

(** Loop body extensionality. *)
Lemma cfor_ext {S} f i cond next (b1 b2 : Z -> S -> res S) st :
  (forall i st, b1 i st = b2 i st) ->
  cfor f i cond next b1 st = cfor f i cond next b2 st.
Proof.
  intros H. revert i st. induction f; intros; simpl; [reflexivity|].
  destruct (cond i); [|reflexivity]. rewrite H.
  destruct (b2 i st); simpl; auto.
Qed.

Lemma u32_small z : 0 <= z < 4294967296 -> u32 z = z.
Proof. unfold u32. intros. apply Z.mod_small. lia. Qed.

Lemma u64_small z : 0 <= z < 18446744073709551616 -> u64 z = z.
Proof. unfold u64. intros. apply Z.mod_small. lia. Qed.

Lemma to_i32_small z : -2147483648 <= z <= 2147483647 -> to_i32 z = z.
Proof.
  unfold to_i32. intros.
  destruct (Z.ltb_spec (z mod 4294967296) 2147483648); lia.
Qed.

Lemma i32_ok z : -2147483648 <= z <= 2147483647 -> i32 z = Ok z.
Proof.
  unfold i32, in_i32. intros.
  destruct (Z.leb_spec (-2147483648) z), (Z.leb_spec z 2147483647); try lia; reflexivity.
Qed.

Lemma i64_ok z : -9223372036854775808 <= z <= 9223372036854775807 -> i64 z = Ok z.
Proof.
  unfold i64, in_i64. intros.
  destruct (Z.leb_spec (-9223372036854775808) z), (Z.leb_spec z 9223372036854775807);
    try lia; reflexivity.
Qed.

Lemma i32_inv z v : i32 z = Ok v -> v = z /\ -2147483648 <= z <= 2147483647.
Proof.
  unfold i32, in_i32.
  destruct (Z.leb_spec (-2147483648) z), (Z.leb_spec z 2147483647); simpl; intros H1;
    inversion H1; subst; lia.
Qed.

(** A loop that rewrites [a[i]] from [a[i]] alone, for i = 0 .. n-1. *)
Lemma map_loop (n : Z) (P : Z -> Z -> Prop) (R : Z -> Z -> Z -> Prop)
      (body : Z -> list Z -> res (list Z)) (a : list Z) :
  0 <= n < 4294967296 -> n <= zlen a ->
  (forall i, 0 <= i < n -> P i (at_ a i)) ->
  (forall i b, 0 <= i < n -> zlen b = zlen a -> P i (at_ b i) ->
     exists v, body i b = Ok (aset b i v) /\ R i (at_ b i) v) ->
  exists r, cfor (fuel n) 0 (fun i => i <? n) (fun i => u32 (i + 1)) body a = Ok r
    /\ zlen r = zlen a
    /\ (forall i, 0 <= i < n -> R i (at_ a i) (at_ r i))
    /\ (forall i, n <= i < zlen a -> at_ r i = at_ a i).
Proof.
  intros Hn Hlen HP Hb.
  destruct (cfor_count (fun c b => zlen b = zlen a
      /\ (forall i, 0 <= i < c -> R i (at_ a i) (at_ b i))
      /\ (forall i, c <= i < zlen a -> at_ b i = at_ a i))
    n (fun c => c) (fun i => i <? n) (fun i => u32 (i + 1)) body)
    with (f := fuel n) (i0 := 0) (st := a) as (r & Hr & HL & H1 & H2).
  - lia.
  - intros. lia.
  - lia.
  - intros. apply u32_small. lia.
  - intros c b Hc (HL & H1 & H2).
    destruct (Hb c b) as (v & Hv & HR); [lia|assumption|rewrite H2 by lia; auto|].
    exists (aset b c v). split; [assumption|].
    rewrite aset_len. split; [assumption|]. split.
    + intros i Hi. destruct (Z.eq_dec i c) as [->|Hne].
      * rewrite at_aset_same by lia. rewrite H2 in HR by lia. assumption.
      * rewrite at_aset_other by lia. apply H1. lia.
    + intros i Hi. rewrite at_aset_other by lia. apply H2. lia.
  - reflexivity.
  - unfold fuel. lia.
  - split; [reflexivity|]. split; [intros; lia|]. reflexivity.
  - exists r. auto.
Qed.
