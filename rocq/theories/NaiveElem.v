(** Element-level facts about src/naive_ntt.c for q = 12289. *)

From Coq Require Import ZArith List Bool Lia Setoid Morphisms.
From Verif Require Import CSem Spec Loops ModQ Stages Tower RedElem ModelNaive NttElem.
Import ListNotations.
Open Scope Z_scope.

(** Values produced by [% q]. *)
Definition can1 (v : Z) : Prop := -12289 < v < 12289.

Lemma rem32_ok x : rem32 x 12289 = Ok (Z.rem x 12289).
Proof. unfold rem32. cbn [Z.eqb Pos.eqb andb]. now rewrite andb_false_r. Qed.

Lemma eqQ_rem x : eqQ (Z.rem x 12289) x.
Proof.
  apply eqQ_iff. exists (- Z.quot x 12289). assert (H := Z.quot_rem' x 12289). unfold Q. lia.
Qed.

Lemma can1_rem x : can1 (Z.rem x 12289).
Proof. apply rem_bounds. Qed.

Lemma mul_can1 x y : can1 x -> can1 y -> -150994944 <= x * y <= 150994944.
Proof. unfold can1. nia. Qed.

Lemma can_can1 x : can x -> can1 x.
Proof. unfold can, can1. lia. Qed.

Lemma mul_array16_naive_spec a n p :
  0 <= n < 4294967296 -> n <= zlen a -> n <= zlen p ->
  (forall i, 0 <= i < n -> -2147483648 <= at_ a i * at_ p i <= 2147483647) ->
  exists r, mul_array16_naive a n p 12289 = Ok r /\ zlen r = zlen a
    /\ (forall i, 0 <= i < n -> at_ r i = Z.rem (at_ a i * at_ p i) 12289)
    /\ (forall i, n <= i < zlen a -> at_ r i = at_ a i).
Proof.
  intros Hn Hl Hp Ha. unfold mul_array16_naive.
  apply map_loop with (P := fun i x => -2147483648 <= x * at_ p i <= 2147483647)
     (R := fun i x v => v = Z.rem (x * at_ p i) 12289); auto.
  intros i b Hi Hlb Hb. step_rd. step_rd. unfold mul32. rewrite i32_ok by lia. cbn [bind].
  rewrite rem32_ok. cbn [bind]. step_wr. eauto.
Qed.

Lemma scalar_mul_array_naive_spec a n c :
  0 <= n < 4294967296 -> n <= zlen a ->
  (forall i, 0 <= i < n -> -2147483648 <= at_ a i * c <= 2147483647) ->
  exists r, scalar_mul_array_naive a n c 12289 = Ok r /\ zlen r = zlen a
    /\ (forall i, 0 <= i < n -> at_ r i = Z.rem (at_ a i * c) 12289)
    /\ (forall i, n <= i < zlen a -> at_ r i = at_ a i).
Proof.
  intros Hn Hl Ha. unfold scalar_mul_array_naive.
  apply map_loop with (P := fun i x => -2147483648 <= x * c <= 2147483647)
     (R := fun i x v => v = Z.rem (x * c) 12289); auto.
  intros i b Hi Hlb Hb. step_rd. unfold mul32. rewrite i32_ok by lia. cbn [bind].
  rewrite rem32_ok. cbn [bind]. step_wr. eauto.
Qed.

Ltac next_rd := rewrite rd_ok by (rewrite ?aset_len; lia); cbn [bind].
Ltac next_wr := rewrite wr_ok by (rewrite ?aset_len; lia); cbn [bind].

Lemma bfly0_naive_ct n h s : n <= 2147483648 -> ct_pair n h 1 can1 can1 s (bfly0_naive 12289 s h).
Proof.
  intros Hn. unfold bfly0_naive. pair_start n s h. unfold can1 in Bs, Bt.
  repeat step_rd. unfold sub32, add32. rewrite i32_ok by lia. cbn [bind].
  rewrite rem32_ok. cbn [bind]. next_wr. next_rd. rewrite at_aset_other by lia.
  rewrite i32_ok by lia. cbn [bind]. rewrite rem32_ok. cbn [bind]. next_wr.
  do 2 eexists. split; [reflexivity|].
  split; [rewrite eqQ_rem; qring|]. split; [rewrite eqQ_rem; qring|]. auto using can1_rem.
Qed.

Lemma bfly0_naive_gs n h s : n <= 2147483648 -> gs_pair n h 1 can1 can1 s (bfly0_naive 12289 s h).
Proof.
  intros Hn a HL Hs Hh Hsh Bs Bt.
  destruct (bfly0_naive_ct n h s Hn a HL Hs Hh Hsh Bs Bt) as (x & y & E & Hx & Hy & B).
  exists x, y. split; [exact E|].
  split; [rewrite Hx; qring|]. split; [rewrite Hy; qring|]. exact B.
Qed.

Lemma ct_bfly_naive_ct n h s w z : n <= 2147483648 -> can w -> eqQ w z ->
  ct_pair n h z can1 can1 s (ct_bfly_naive 12289 w s h).
Proof.
  intros Hn Hw Hz. unfold ct_bfly_naive. pair_start n s h.
  assert (Hm := mul_can1 _ _ Bt (can_can1 _ Hw)). unfold can1 in Bs, Bt.
  step_rd. unfold mul32, sub32, add32. rewrite i32_ok by lia. cbn [bind].
  step_rd. rewrite i32_ok by lia. cbn [bind]. rewrite rem32_ok. cbn [bind].
  next_wr. next_rd. rewrite at_aset_other by lia.
  rewrite i32_ok by lia. cbn [bind]. rewrite rem32_ok. cbn [bind]. next_wr.
  do 2 eexists. split; [reflexivity|].
  split; [rewrite eqQ_rem, Hz; qring|]. split; [rewrite eqQ_rem, Hz; qring|].
  auto using can1_rem.
Qed.

Lemma gs_bfly_naive_gs n h s w z : n <= 2147483648 -> can w -> eqQ w z ->
  gs_pair n h z can1 can1 s (gs_bfly_naive 12289 w s h).
Proof.
  intros Hn Hw Hz. unfold gs_bfly_naive. pair_start n s h. unfold can1 in Bs, Bt.
  repeat step_rd. unfold mul32, sub32, add32. rewrite i32_ok by lia. cbn [bind].
  unfold can in Hw.
  assert (Hm : -2147483648 <= (at_ a s - at_ a (s + h)) * w <= 2147483647) by nia.
  rewrite i32_ok by lia. cbn [bind]. rewrite rem32_ok. cbn [bind].
  next_wr. next_rd. rewrite at_aset_other by lia.
  rewrite i32_ok by lia. cbn [bind]. rewrite rem32_ok. cbn [bind]. next_wr.
  do 2 eexists. split; [reflexivity|].
  split; [rewrite eqQ_rem; qring|]. split; [rewrite eqQ_rem, Hz; qring|].
  auto using can1_rem.
Qed.
