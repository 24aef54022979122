(** Element-level facts about src/ntt.c: modq, add_mod, sub_mod, array
    products, and the butterflies. *)

From Coq Require Import ZArith List Bool Lia Setoid Morphisms.
From Verif Require Import CSem Spec Loops ModQ Stages Tower ModelNtt RedElem.
Import ListNotations.
Open Scope Z_scope.

Lemma divq_ok x : 0 <= x < 254259409 -> divq x = x / 12289.
Proof.
  intros H. unfold divq. rewrite (u64_small x) by lia. rewrite u64_small by lia.
  rewrite Z.shiftr_div_pow2 by lia. change (2 ^ 41) with 2199023255552.
  rewrite u32_small by lia. lia.
Qed.

Lemma modq_ok x : 0 <= x < 254259409 -> modq x = x mod 12289.
Proof.
  intros H. unfold modq, Q. rewrite divq_ok by assumption.
  rewrite (u32_small x) by lia. rewrite (u32_small (x / 12289 * 12289)) by lia.
  rewrite u32_small by lia. rewrite to_i32_small by lia. lia.
Qed.

Definition can (v : Z) : Prop := 0 <= v < 12289.

Lemma mul_can x y : can x -> can y -> 0 <= x * y <= 150994944.
Proof. unfold can. nia. Qed.

Lemma mask14 x : -16384 <= x <= 16383 ->
  Z.land (Z.shiftr x 14) 12289 = if x <? 0 then 12289 else 0.
Proof.
  intros H. rewrite Z.shiftr_div_pow2 by lia. change (2 ^ 14) with 16384.
  destruct (Z.ltb_spec x 0).
  - replace (x / 16384) with (-1) by lia. apply Z.land_m1_l.
  - replace (x / 16384) with 0 by lia. apply Z.land_0_l.
Qed.

Lemma sub_mod_ok x y : can x -> can y -> sub_mod x y = Ok ((x - y) mod 12289).
Proof.
  unfold can, sub_mod, sub32, add32, Q. intros Hx Hy.
  rewrite i32_ok by lia. cbn [bind]. rewrite mask14 by lia.
  rewrite i32_ok by (destruct (x - y <? 0); lia). f_equal.
  destruct (Z.ltb_spec (x - y) 0); lia.
Qed.

Lemma add_mod_ok x y : can x -> can y -> add_mod x y = Ok ((x + y) mod 12289).
Proof.
  unfold can, add_mod, sub32, add32, Q. intros Hx Hy.
  rewrite i32_ok by lia. cbn [bind]. rewrite i32_ok by lia. cbn [bind].
  rewrite mask14 by lia.
  rewrite i32_ok by (destruct (x + (y - 12289) <? 0); lia). f_equal.
  destruct (Z.ltb_spec (x + (y - 12289)) 0); lia.
Qed.

Lemma can_mod x : can (x mod 12289).
Proof. unfold can. lia. Qed.

(** ** Array products *)

Lemma mul_array16_spec a n p :
  0 <= n < 4294967296 -> n <= zlen a -> n <= zlen p ->
  (forall i, 0 <= i < n -> 0 <= at_ a i * at_ p i < 254259409) ->
  exists r, mul_array16 a n p = Ok r /\ zlen r = zlen a
    /\ (forall i, 0 <= i < n -> at_ r i = (at_ a i * at_ p i) mod 12289)
    /\ (forall i, n <= i < zlen a -> at_ r i = at_ a i).
Proof.
  intros Hn Hl Hp Ha. unfold mul_array16.
  apply map_loop with (P := fun i x => 0 <= x * at_ p i < 254259409)
     (R := fun i x v => v = (x * at_ p i) mod 12289); auto.
  intros i b Hi Hlb Hb. step_rd. step_rd. unfold mul32. rewrite i32_ok by lia. cbn [bind].
  rewrite modq_ok by lia. step_wr. eauto.
Qed.

Lemma scalar_mul_array_spec a n c :
  0 <= n < 4294967296 -> n <= zlen a ->
  (forall i, 0 <= i < n -> 0 <= at_ a i * c < 254259409) ->
  exists r, scalar_mul_array a n c = Ok r /\ zlen r = zlen a
    /\ (forall i, 0 <= i < n -> at_ r i = (at_ a i * c) mod 12289)
    /\ (forall i, n <= i < zlen a -> at_ r i = at_ a i).
Proof.
  intros Hn Hl Ha. unfold scalar_mul_array.
  apply map_loop with (P := fun i x => 0 <= x * c < 254259409)
     (R := fun i x v => v = (x * c) mod 12289); auto.
  intros i b Hi Hlb Hb. step_rd. unfold mul32. rewrite i32_ok by lia. cbn [bind].
  rewrite modq_ok by lia. step_wr. eauto.
Qed.

(** ** Butterflies *)

Lemma pair_idx n s h : n <= 2147483648 -> 0 <= s -> 0 < h -> s + h < n -> u32 (s + h) = s + h.
Proof. intros. apply u32_small. lia. Qed.

Ltac pair_start n s h :=
  intros a HL Hs Hh Hsh Bs Bt; rewrite (pair_idx n s h) by lia.

Lemma bfly0_ct n h s : n <= 2147483648 -> ct_pair n h 1 can can s (bfly0 s h).
Proof.
  intros Hn. unfold bfly0. pair_start n s h.
  repeat step_rd.
  rewrite sub_mod_ok by assumption. cbn [bind]. step_wr.
  rewrite rd_ok by (rewrite aset_len; lia). cbn [bind]. rewrite at_aset_other by lia.
  rewrite add_mod_ok by assumption. cbn [bind]. rewrite wr_ok by (rewrite aset_len; lia).
  do 2 eexists. split; [reflexivity|].
  split; [rewrite eqQ_modn; qring|]. split; [rewrite eqQ_modn; qring|]. auto using can_mod.
Qed.

Lemma ct_bfly_ct n h s w z : n <= 2147483648 -> can w -> eqQ w z ->
  ct_pair n h z can can s (ct_bfly w s h).
Proof.
  intros Hn Hw Hz. unfold ct_bfly. pair_start n s h.
  assert (Hm := mul_can _ _ Bt Hw).
  step_rd. unfold mul32. rewrite i32_ok by lia. cbn [bind]. rewrite modq_ok by lia.
  step_rd.
  rewrite sub_mod_ok by auto using can_mod. cbn [bind]. step_wr.
  rewrite rd_ok by (rewrite aset_len; lia). cbn [bind]. rewrite at_aset_other by lia.
  rewrite add_mod_ok by auto using can_mod. cbn [bind]. rewrite wr_ok by (rewrite aset_len; lia).
  do 2 eexists. split; [reflexivity|].
  split; [rewrite !eqQ_modn, Hz; qring|]. split; [rewrite !eqQ_modn, Hz; qring|].
  auto using can_mod.
Qed.

Lemma bfly0_gs n h s : n <= 2147483648 -> gs_pair n h 1 can can s (bfly0 s h).
Proof.
  intros Hn a HL Hs Hh Hsh Bs Bt.
  destruct (bfly0_ct n h s Hn a HL Hs Hh Hsh Bs Bt) as (x & y & E & Hx & Hy & B).
  exists x, y. split; [exact E|].
  split; [rewrite Hx; qring|]. split; [rewrite Hy; qring|]. exact B.
Qed.

Lemma gs_bfly_gs n h s w z : n <= 2147483648 -> can w -> eqQ w z ->
  gs_pair n h z can can s (gs_bfly w s h).
Proof.
  intros Hn Hw Hz. unfold gs_bfly. pair_start n s h.
  repeat step_rd.
  rewrite sub_mod_ok by assumption. cbn [bind].
  assert (Hm := mul_can _ _ (can_mod (at_ a s - at_ a (s + h))) Hw).
  unfold mul32. rewrite i32_ok by lia. cbn [bind]. rewrite modq_ok by lia. step_wr.
  rewrite rd_ok by (rewrite aset_len; lia). cbn [bind]. rewrite at_aset_other by lia.
  rewrite add_mod_ok by assumption. cbn [bind]. rewrite wr_ok by (rewrite aset_len; lia).
  do 2 eexists. split; [reflexivity|].
  split; [rewrite !eqQ_modn; qring|]. split; [rewrite !eqQ_modn, Hz; qring|].
  auto using can_mod.
Qed.
