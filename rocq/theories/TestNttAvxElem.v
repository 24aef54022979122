(** The parts of test_ntt_avx.c. *)

From Coq Require Import ZArith List Bool Lia.
From Verif Require Import CSem Spec Loops AvxElem AvxSem ModelRed ModelAvx ModelSort ModelTests TestsElem TestsSound TestsRun ModelTestAvx
  TestAvxElem AvxNttFinal ModelTestTables TestNttRedFinal FineAll FineTabs ModelTestNttAvx.
Import ListNotations.
Open Scope Z_scope.

(** ** Random numbers *)

Section Random.
Variable rnd : Z -> Z.
Hypothesis Hrnd : forall k, 0 <= rnd k < 2147483648.

Lemma coeff_ok n r : 0 < n <= 1000000 -> random_coeff rnd (mul32 2) n r = Ok (draw rnd n r, r + 1).
Proof.
  intros Hn. unfold random_coeff, mul32. replace (0 <? n) with true by lia. cbn [cassert bind].
  assert (B := Hrnd r). rewrite i32_ok by lia. cbn [bind]. unfold rem64. replace (2 * n =? 0) with false by lia.
  replace (rnd r =? -9223372036854775808) with false by lia. cbn [andb bind].
  rewrite Z.rem_mod_nonneg by lia. assert (C := Z.mod_pos_bound (rnd r) (2 * n) ltac:(lia)).
  rewrite to_i32_small by lia. unfold sub32. rewrite i32_ok by lia. cbn [bind]. fold (draw rnd n r).
  assert (D := draw_range rnd Hrnd n r ltac:(lia)).
  replace ((- n <=? draw rnd n r) && (draw rnd n r <=? n - 1)) with true by lia. reflexivity.
Qed.

(** The first [n] elements of [b] are values of [v], and the others those of [a] *)
Definition refills (a b : list Z) (n : Z) (v : Z -> Z) : Prop :=
  zlen b = zlen a /\ (forall i, 0 <= i < n -> at_ b i = v i) /\ forall i, n <= i < zlen a -> at_ b i = at_ a i.

Lemma refill_draws n a r (v : Z -> Z) (body : Z -> list Z * Z -> res (list Z * Z)) :
  0 <= n < 4294967296 -> n <= zlen a ->
  (forall i b, 0 <= i < n -> body i (b, r + i) = do b <- wr b i (v (r + i)); Ok (b, r + i + 1)) ->
  exists b, loop n body (a, r) = Ok (b, r + n) /\ refills a b n (fun i => v (r + i)).
Proof.
  intros Hn La Hb.
  destruct (loop_ok (fun m s => snd s = r + m /\ zlen (fst s) = zlen a /\ (forall i, 0 <= i < m -> at_ (fst s) i = v (r + i))
    /\ forall i, m <= i < zlen a -> at_ (fst s) i = at_ a i) n body (a, r))
    as ((b & r') & E & Er & L & V & W).
  - exact Hn.
  - cbn [fst snd]. split; [lia|]. split; [reflexivity|]. split; [intros; lia|reflexivity].
  - intros i (b & r') Hi (Er & Lb & V & W). cbn [fst snd] in *. subst r'. rewrite Hb by assumption.
    rewrite wr_ok by lia. cbn [bind]. eexists. split; [reflexivity|]. cbn [fst snd]. split; [lia|].
    split; [rewrite aset_len; exact Lb|]. split.
    + intros j Hj. destruct (Z.eq_dec j i) as [->|].
      * apply at_aset_same. lia.
      * rewrite at_aset_other by lia. apply V. lia.
    + intros j Hj. rewrite at_aset_other by lia. apply W. lia.
  - cbn [fst snd] in *. subst r'. exists b. split; [exact E|]. split; [exact L|]. split; [exact V|exact W].
Qed.

Lemma random_array_ok n a r : 0 <= n < 4294967296 -> n <= zlen a ->
  exists b, random_array rnd a n r = Ok (b, r + n) /\ refills a b n (fun i => draw rnd 200000 (r + i)).
Proof.
  intros Hn La. unfold random_array. apply refill_draws; auto. intros i b Hi. rewrite coeff_ok by lia. reflexivity.
Qed.
Lemma random_array16_ok n a r : 0 <= n < 4294967296 -> n <= zlen a ->
  exists b, random_array16 rnd (mul32 2) a n r = Ok (b, r + n) /\ refills a b n (fun i => draw rnd 32768 (r + i)).
Proof.
  intros Hn La. unfold random_array16. apply refill_draws; auto. intros i b Hi. rewrite coeff_ok by lia. cbn [bind].
  rewrite to_i16_small by (exact (draw_range rnd Hrnd 32768 _ ltac:(lia))). reflexivity.
Qed.

(** ** cross_check *)

(** [f] and [g] return the same array when the elements of the argument are in -200000 .. 199999 *)
Definition agree2 (n : Z) (f g : list Z -> res (list Z)) : Prop :=
  forall a, zlen a = n -> all_in (-200000) 199999 a -> exists x, f a = Ok x /\ g a = Ok x /\ zlen x = n.

Lemma cross_check_ok stk n f g r : 0 <= n < 4294967296 -> (forall i, zlen (stk n r i) = n) ->
  agree2 n f g -> cross_check rnd stk n f g r = Ok (r + 100000 * n).
Proof.
  intros Hn HS HA. unfold cross_check.
  match goal with |- context [loop 100000 ?B ?s0] =>
    destruct (loop_ok (fun m s => snd s = r + m * n /\ zlen (fst (fst (fst s))) = n /\ zlen (snd (fst (fst s))) = n
      /\ zlen (snd (fst s)) = n) 100000 B s0) as ((((a & b) & c) & r') & E & Er & La & Lb & Lc) end.
  - lia.
  - cbn [fst snd]. split; [lia|]. repeat split; apply HS.
  - intros j (((a & b) & c) & r') Hj (Er & La & Lb & Lc). cbn [fst snd] in *.
    destruct (random_array_ok n a r' Hn ltac:(lia)) as (a1 & -> & L1 & V1 & _). cbn [bind]. rewrite La in L1.
    rewrite !(copy_array_ok rnd Hrnd) by assumption. cbn [bind].
    destruct (HA a1 L1) as (x & -> & -> & Lx).
    { apply all_in_of. intros i Hi. rewrite V1 by lia. exact (draw_range rnd Hrnd 200000 (r' + i) ltac:(lia)). }
    cbn [bind]. rewrite equal_arrays_ok by auto. cbn [expect bind]. eexists. split; [reflexivity|]. cbn [fst snd].
    split; [lia|auto].
  - rewrite E. cbn [fst snd bind] in *. f_equal. lia.
Qed.
End Random.

(** ** The 48 comparisons *)

Section Agree.
Variables (k : nat) (p : list Z).
Hypothesis Hk : (4 <= k <= 31)%nat.
Hypothesis Lp : zlen p = 2 ^ Z.of_nat k.
Hypothesis Ip : all_in (-6144) 6144 p.

Definition same (F G : list Z -> Z -> list Z -> res (list Z)) : Prop :=
  agree2 (2 ^ Z.of_nat k) (fun a => F a (2 ^ Z.of_nat k) p) (fun a => G a (2 ^ Z.of_nat k) p).

Let K : 4 <= Z.of_nat k <= 31. Proof. lia. Qed.
Let Ip1 i : 1 <= i < 2 ^ Z.of_nat k -> -6144 <= at_ p i <= 6144.
Proof. intros Hi. apply all_in_at; [exact Ip|lia]. Qed.
Let Ip16 : all_in (- 2 ^ 15) (2 ^ 15 - 1) p.
Proof. apply all_in_of. intros i Hi. assert (B := all_in_at _ _ _ i Ip Hi). change (2 ^ 15) with 32768. lia. Qed.
Let Le : 2 ^ Z.of_nat k <= zlen p. Proof. lia. Qed.

Lemma abs_of a : zlen a = 2 ^ Z.of_nat k -> all_in (-200000) 199999 a -> forall i, 0 <= i < 2 ^ Z.of_nat k -> Z.abs (at_ a i) <= 200000.
Proof. intros La Ia i Hi. assert (B := all_in_at _ _ _ i Ia ltac:(lia)). lia. Qed.

Ltac use_asm H H1 := destruct H as (r & E & Lr & _); exists r; split; [apply H1, E|]; split; [exact E|exact Lr].

Lemma ctA_same : unit_rows (Z.of_nat k) p -> all_small 1000000000 (ctA_levels k p 200000) = true ->
  same ntt_red_ct_rev2std_asm ntt_red_ct_rev2std /\ same mulntt_red_ct_rev2std_asm mulntt_red_ct_rev2std.
Proof.
  intros U B. split; intros a La Ia; cbv beta.
  - destruct (ntt_asm_equals_c_L (Z.of_nat k) a p K La Le Ip16 U) as (X & _).
    destruct (ctA_safe k p a 200000 1000000000 ltac:(lia) Lp Ip1 La (abs_of a La Ia) ltac:(lia) B) as (Y & _).
    specialize (Y U). use_asm Y X.
  - destruct (mulntt_asm_equals_c_L (Z.of_nat k) a p K La Le Ip16) as (X & _).
    destruct (ctA_safe k p a 200000 1000000000 ltac:(lia) Lp Ip1 La (abs_of a La Ia) ltac:(lia) B) as (_ & Y). use_asm Y X.
Qed.
Lemma ctB_same : unit_rows (Z.of_nat k) p -> all_small 1000000000 (ctB_levels k p 200000) = true ->
  same ntt_red_ct_std2rev_asm ntt_red_ct_std2rev.
Proof.
  intros U B a La Ia; cbv beta.
  destruct (ntt_asm_equals_c_L (Z.of_nat k) a p K La Le Ip16 U) as (_ & X & _).
  destruct (ctB_safe k p a 200000 1000000000 ltac:(lia) Lp Ip1 La (abs_of a La Ia) ltac:(lia) B) as (Y & _).
  specialize (Y U). use_asm Y X.
Qed.
Lemma mulctB_same : all_small 1000000000 (ctB_levels k p 200000) = true -> same mulntt_red_ct_std2rev_asm mulntt_red_ct_std2rev.
Proof.
  intros B a La Ia; cbv beta.
  destruct (mulntt_asm_equals_c_L (Z.of_nat k) a p K La Le Ip16) as (_ & X & _).
  destruct (ctB_safe k p a 200000 1000000000 ltac:(lia) Lp Ip1 La (abs_of a La Ia) ltac:(lia) B) as (_ & Y). use_asm Y X.
Qed.
Lemma gsB_same : unit_rows (Z.of_nat k) p -> all_small 1000000000 (gsB_levels k p 200000) = true ->
  same ntt_red_gs_rev2std_asm ntt_red_gs_rev2std.
Proof.
  intros U B a La Ia; cbv beta.
  destruct (ntt_asm_equals_c_L (Z.of_nat k) a p K La Le Ip16 U) as (_ & _ & X & _).
  destruct (gsB_safe k p a 200000 1000000000 ltac:(lia) Lp Ip1 La (abs_of a La Ia) ltac:(lia) B) as (Y & _). use_asm Y X.
Qed.
Lemma mulgsB_same : all_small 1000000000 (gsB_levels k p 200000) = true -> same nttmul_red_gs_rev2std_asm nttmul_red_gs_rev2std.
Proof.
  intros B a La Ia; cbv beta.
  destruct (mulntt_asm_equals_c_L (Z.of_nat k) a p K La Le Ip16) as (_ & _ & X & _).
  destruct (gsB_safe k p a 200000 1000000000 ltac:(lia) Lp Ip1 La (abs_of a La Ia) ltac:(lia) B) as (_ & Y). use_asm Y X.
Qed.
Lemma gsA_same : unit_rows (Z.of_nat k) p -> all_small 1000000000 (gsA_levels k p 200000) = true ->
  same ntt_red_gs_std2rev_asm ntt_red_gs_std2rev.
Proof.
  intros U B a La Ia; cbv beta.
  destruct (ntt_asm_equals_c_L (Z.of_nat k) a p K La Le Ip16 U) as (_ & _ & _ & X).
  destruct (gsA_safe k p a 200000 1000000000 ltac:(lia) Lp Ip1 La (abs_of a La Ia) ltac:(lia) B) as (Y & _). use_asm Y X.
Qed.
Lemma mulgsA_same : all_small 1000000000 (gsA_levels k p 200000) = true -> same nttmul_red_gs_std2rev_asm nttmul_red_gs_std2rev.
Proof.
  intros B a La Ia; cbv beta.
  destruct (mulntt_asm_equals_c_L (Z.of_nat k) a p K La Le Ip16) as (_ & _ & _ & X).
  destruct (gsA_safe k p a 200000 1000000000 ltac:(lia) Lp Ip1 La (abs_of a La Ia) ltac:(lia) B) as (_ & Y). use_asm Y X.
Qed.
End Agree.
