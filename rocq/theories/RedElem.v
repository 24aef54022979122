(** Element-level facts about the Longa-Naehrig reduction and the array
    operations of ntt_red.c that work element by element. *)

From Coq Require Import ZArith List Bool Lia.
From Verif Require Import CSem Spec Loops ModelRed.
Import ListNotations.
Open Scope Z_scope.
Local Opaque Z.mul Z.add Z.sub.

Definition redz (x : Z) : Z := 3 * (x mod 4096) - x / 4096.

Lemma land4095 x : Z.land x 4095 = x mod 4096.
Proof. change 4095 with (Z.ones 12). now rewrite Z.land_ones by lia. Qed.

Lemma shiftr12 x : Z.shiftr x 12 = x / 4096.
Proof. now rewrite Z.shiftr_div_pow2 by lia. Qed.

Lemma redz_cong x : eqQ (redz x) (3 * x).
Proof.
  unfold eqQ, redz, Spec.Q.
  replace (3 * x) with (3 * (x mod 4096) - x / 4096 + (x / 4096) * 12289) by lia.
  now rewrite Z.mod_add by lia.
Qed.

Lemma redz_bounds lo hi x : lo <= x <= hi ->
  - (hi / 4096) <= redz x <= 12285 - lo / 4096.
Proof.
  intros H. unfold redz.
  assert (lo / 4096 <= x / 4096) by (apply Z.div_le_mono; lia).
  assert (x / 4096 <= hi / 4096) by (apply Z.div_le_mono; lia).
  assert (0 <= x mod 4096 < 4096) by (apply Z.mod_pos_bound; lia). lia.
Qed.

Lemma red_ok x : -2147483648 <= x <= 2147483647 -> red x = Ok (redz x).
Proof.
  intros H. unfold red, mul32, sub32. rewrite land4095, shiftr12.
  rewrite i32_ok by lia. cbn [bind]. rewrite i32_ok by lia. reflexivity.
Qed.

Lemma mul_red_ok x y :
  -8796042698752 <= x * y <= 8796093022207 -> mul_red x y = Ok (redz (x * y)).
Proof.
  intros H. unfold mul_red, mul64. rewrite i64_ok by lia. cbn [bind].
  replace (_ && _) with true by lia. cbn [cassert bind].
  rewrite land4095, shiftr12. set (z := x * y) in *.
  rewrite !to_i32_small by lia. unfold mul32, sub32.
  rewrite i32_ok by lia. cbn [bind]. rewrite i32_ok by lia. reflexivity.
Qed.

(** The element loops. *)

Lemma zlen_n (a : list Z) n : zlen a = n -> 0 <= n.
Proof. intros <-. apply zlen_nonneg. Qed.

Ltac step_rd :=
  match goal with |- context [rd ?b ?i] => rewrite (rd_ok b i) by lia end; cbn [bind].
Ltac step_wr :=
  match goal with |- context [wr ?b ?i ?v] => rewrite (wr_ok b i v) by lia end; cbn [bind].

Lemma reduce_array_spec a n :
  0 <= n < 4294967296 -> n <= zlen a ->
  (forall i, 0 <= i < n -> -2147483648 <= at_ a i <= 2147483647) ->
  exists r, reduce_array a n = Ok r /\ zlen r = zlen a
    /\ (forall i, 0 <= i < n -> at_ r i = redz (at_ a i))
    /\ (forall i, n <= i < zlen a -> at_ r i = at_ a i).
Proof.
  intros Hn Hl Ha. unfold reduce_array.
  apply map_loop with (P := fun _ x => -2147483648 <= x <= 2147483647)
     (R := fun i x v => v = redz x); auto.
  intros i b Hi Hlb Hb. step_rd. rewrite red_ok by lia. cbn [bind]. step_wr. eauto.
Qed.

Lemma redz_i32 x : -2147483648 <= x <= 2147483647 -> -524287 <= redz x <= 536573.
Proof. intros H. apply redz_bounds in H. cbn in H. lia. Qed.

Lemma redz_twice x : -2147483648 <= x <= 2147483647 -> -130 <= redz (redz x) <= 12413.
Proof. intros H. apply redz_i32, redz_bounds in H. cbn in H. lia. Qed.

Lemma reduce_array_twice_spec a n :
  0 <= n < 4294967296 -> n <= zlen a ->
  (forall i, 0 <= i < n -> -2147483648 <= at_ a i <= 2147483647) ->
  exists r, reduce_array_twice a n = Ok r /\ zlen r = zlen a
    /\ (forall i, 0 <= i < n -> at_ r i = redz (redz (at_ a i)))
    /\ (forall i, n <= i < zlen a -> at_ r i = at_ a i).
Proof.
  intros Hn Hl Ha. unfold reduce_array_twice.
  apply map_loop with (P := fun _ x => -2147483648 <= x <= 2147483647)
     (R := fun i x v => v = redz (redz x)); auto.
  intros i b Hi Hlb Hb. step_rd. rewrite red_ok by lia. cbn [bind].
  assert (H := redz_i32 _ Hb).
  rewrite red_ok by lia. cbn [bind]. step_wr. eauto.
Qed.

(** [x >> 16] of a small number is 0 or -1. *)
Lemma mask_small x : -65536 <= x <= 65535 ->
  Z.land (Z.shiftr x 16) 12289 = if x <? 0 then 12289 else 0.
Proof.
  intros H. rewrite Z.shiftr_div_pow2 by lia. change (2 ^ 16) with 65536.
  destruct (Z.ltb_spec x 0).
  - replace (x / 65536) with (-1) by lia. apply Z.land_m1_l.
  - replace (x / 65536) with 0 by lia. apply Z.land_0_l.
Qed.

Lemma correct_spec a n :
  0 <= n < 4294967296 -> n <= zlen a ->
  (forall i, 0 <= i < n -> -12289 <= at_ a i <= 24577) ->
  exists r, correct a n = Ok r /\ zlen r = zlen a
    /\ (forall i, 0 <= i < n -> at_ r i = at_ a i mod 12289)
    /\ (forall i, n <= i < zlen a -> at_ r i = at_ a i).
Proof.
  intros Hn Hl Ha. unfold correct.
  apply map_loop with (P := fun _ x => -12289 <= x <= 24577)
     (R := fun i x v => v = x mod 12289); auto.
  intros i b Hi Hlb Hb. step_rd. unfold Q, add32, sub32. set (x := at_ b i) in *.
  rewrite mask_small by lia.
  rewrite i32_ok by (destruct (x <? 0); lia). cbn [bind].
  rewrite i32_ok by (destruct (x <? 0); lia). cbn [bind].
  rewrite mask_small by (destruct (Z.ltb_spec x 0); lia).
  rewrite i32_ok.
  2:{ destruct (Z.ltb_spec x 0); [destruct (Z.ltb_spec (x + 12289 - 12289) 0)
                              |destruct (Z.ltb_spec (x + 0 - 12289) 0)]; lia. }
  cbn [bind]. step_wr. eexists. split; [reflexivity|].
  destruct (Z.ltb_spec x 0).
  - destruct (Z.ltb_spec (x + 12289 - 12289) 0); lia.
  - destruct (Z.ltb_spec (x + 0 - 12289) 0); lia.
Qed.

Lemma rem_mod_Q x : (if Z.rem x 12289 <? 0 then Z.rem x 12289 + 12289 else Z.rem x 12289)
                    = x mod 12289.
Proof.
  destruct (Z.leb_spec 0 x).
  - rewrite Z.rem_mod_nonneg by lia. destruct (Z.ltb_spec (x mod 12289) 0); lia.
  - assert (E : Z.rem x 12289 = - ((- x) mod 12289)).
    { rewrite <- (Z.opp_involutive x) at 1. rewrite Z.rem_opp_l by lia.
      rewrite Z.rem_mod_nonneg by lia. reflexivity. }
    rewrite E. destruct (Z.ltb_spec (- (- x mod 12289)) 0); lia.
Qed.

Lemma rem_bounds x : -12289 < Z.rem x 12289 < 12289.
Proof.
  assert (H := Z.rem_bound_abs x 12289 ltac:(lia)). lia.
Qed.

Lemma normalize_spec a n :
  0 <= n < 4294967296 -> n <= zlen a ->
  (forall i, 0 <= i < n -> -2147483648 <= at_ a i <= 2147483647) ->
  exists r, normalize a n = Ok r /\ zlen r = zlen a
    /\ (forall i, 0 <= i < n -> at_ r i = at_ a i mod 12289)
    /\ (forall i, n <= i < zlen a -> at_ r i = at_ a i).
Proof.
  intros Hn Hl Ha. unfold normalize.
  apply map_loop with (P := fun _ x => -2147483648 <= x <= 2147483647)
     (R := fun i x v => v = x mod 12289); auto.
  intros i b Hi Hlb Hb. step_rd. unfold rem32, Q.
  replace (12289 =? 0) with false by reflexivity.
  replace (12289 =? -1) with false by reflexivity. rewrite andb_false_r. cbn [bind].
  assert (E := rem_mod_Q (at_ b i)). assert (B := rem_bounds (at_ b i)).
  set (x := Z.rem (at_ b i) 12289) in *.
  exists (at_ b i mod 12289). split; [|reflexivity].
  destruct (x <? 0).
  - unfold add32. rewrite i32_ok by lia. cbn [bind]. rewrite E.
    replace (_ && _) with true by lia. cbn [cassert bind]. step_wr. reflexivity.
  - cbn [bind]. rewrite E.
    replace (_ && _) with true by lia. cbn [cassert bind]. step_wr. reflexivity.
Qed.

Lemma normalize_inv3_spec a n :
  0 <= n < 4294967296 -> n <= zlen a ->
  (forall i, 0 <= i < n -> -2147483648 <= at_ a i <= 2147483647) ->
  exists r, normalize_inv3 a n = Ok r /\ zlen r = zlen a
    /\ (forall i, 0 <= i < n -> at_ r i = (at_ a i * 8193) mod 12289)
    /\ (forall i, n <= i < zlen a -> at_ r i = at_ a i).
Proof.
  intros Hn Hl Ha. unfold normalize_inv3.
  apply map_loop with (P := fun _ x => -2147483648 <= x <= 2147483647)
     (R := fun i x v => v = (x * 8193) mod 12289); auto.
  intros i b Hi Hlb Hb. step_rd. unfold mul64. rewrite i64_ok by lia. cbn [bind].
  unfold rem64, Q.
  replace (12289 =? 0) with false by reflexivity.
  replace (12289 =? -1) with false by reflexivity. rewrite andb_false_r. cbn [bind].
  assert (E := rem_mod_Q (at_ b i * 8193)). assert (B := rem_bounds (at_ b i * 8193)).
  set (y := at_ b i * 8193) in *. set (x := Z.rem y 12289) in *.
  rewrite to_i32_small by lia.
  exists (y mod 12289). split; [|reflexivity].
  destruct (x <? 0).
  - unfold add32. rewrite i32_ok by lia. cbn [bind]. rewrite E.
    replace (_ && _) with true by lia. cbn [cassert bind]. step_wr. reflexivity.
  - cbn [bind]. rewrite E.
    replace (_ && _) with true by lia. cbn [cassert bind]. step_wr. reflexivity.
Qed.

Lemma shift_array_spec a n :
  0 <= n < 4294967296 -> n <= zlen a ->
  (forall i, 0 <= i < n -> -2147483648 <= at_ a i <= 2147483647) ->
  exists r, shift_array a n = Ok r /\ zlen r = zlen a
    /\ (forall i, 0 <= i < n ->
         at_ r i = if 6144 <? at_ a i then at_ a i - 12289 else at_ a i)
    /\ (forall i, n <= i < zlen a -> at_ r i = at_ a i).
Proof.
  intros Hn Hl Ha. unfold shift_array.
  apply map_loop with (P := fun _ x => -2147483648 <= x <= 2147483647)
     (R := fun i x v => v = if 6144 <? x then x - 12289 else x); auto.
  intros i b Hi Hlb Hb. step_rd.
  replace ((Q - 1) / 2) with 6144 by reflexivity.
  destruct (Z.ltb_spec 6144 (at_ b i)).
  - unfold sub32, Q. rewrite i32_ok by lia. cbn [bind]. step_wr. eauto.
  - cbn [bind]. step_wr. eauto.
Qed.

(** Products, under a pointwise condition that excludes overflow. *)
Definition mulrange (z : Z) : Prop := -8796042698752 <= z <= 8796093022207.

Lemma mul_reduce_array16_spec a n p :
  0 <= n < 4294967296 -> n <= zlen a -> n <= zlen p ->
  (forall i, 0 <= i < n -> mulrange (at_ a i * at_ p i)) ->
  exists r, mul_reduce_array16 a n p = Ok r /\ zlen r = zlen a
    /\ (forall i, 0 <= i < n -> at_ r i = redz (at_ a i * at_ p i))
    /\ (forall i, n <= i < zlen a -> at_ r i = at_ a i).
Proof.
  intros Hn Hl Hp Ha. unfold mul_reduce_array16.
  apply map_loop with (P := fun i x => mulrange (x * at_ p i))
     (R := fun i x v => v = redz (x * at_ p i)); auto.
  intros i b Hi Hlb Hb. step_rd. step_rd. rewrite mul_red_ok by (exact Hb). cbn [bind].
  step_wr. eauto.
Qed.

Lemma scalar_mul_reduce_array_spec a n c :
  0 <= n < 4294967296 -> n <= zlen a ->
  (forall i, 0 <= i < n -> mulrange (at_ a i * c)) ->
  exists r, scalar_mul_reduce_array a n c = Ok r /\ zlen r = zlen a
    /\ (forall i, 0 <= i < n -> at_ r i = redz (at_ a i * c))
    /\ (forall i, n <= i < zlen a -> at_ r i = at_ a i).
Proof.
  intros Hn Hl Ha. unfold scalar_mul_reduce_array.
  apply map_loop with (P := fun i x => mulrange (x * c))
     (R := fun i x v => v = redz (x * c)); auto.
  intros i b Hi Hlb Hb. step_rd. rewrite mul_red_ok by (exact Hb). cbn [bind].
  step_wr. eauto.
Qed.

