(** The operations on intervals: what they return, and that the results contain the
    values they stand for. *)

From Coq Require Import ZArith List Bool Lia.
From Verif Require Import CSem Spec Loops RedElem BoundsElem BoundsRound ModelInterval.
From Verif Require ModelBounds.
Import ListNotations.
Open Scope Z_scope.

Definition mem (x : Z) (a : itv) : Prop := fst a <= x <= snd a.
Definition wfi (a : itv) : Prop := fst a <= snd a /\ i64r (fst a) /\ i64r (snd a).

Lemma make_ok x y : x <= y -> make_interval x y = Ok (x, y).
Proof. unfold make_interval. intros. replace (x <=? y) with true by lia. reflexivity. Qed.

Lemma i64_bad z : ~ i64r z -> i64 z = Err SignedOverflow.
Proof.
  unfold i64r, i64, in_i64. intros.
  destruct (Z.leb_spec (-9223372036854775808) z), (Z.leb_spec z 9223372036854775807);
    try lia; reflexivity.
Qed.

Lemma iadd64_ok x y : i64r x -> i64r y -> i64r (x + y) -> iadd64 x y = Ok (x + y).
Proof.
  unfold iadd64, add64. intros Hx Hy H. rewrite i64_ok by exact H. cbn [bind].
  replace (_ || _) with false by lia. reflexivity.
Qed.

Lemma isub64_ok x y : i64r x -> i64r y -> i64r (x - y) -> isub64 x y = Ok (x - y).
Proof.
  unfold isub64, sub64. intros Hx Hy H. rewrite i64_ok by exact H. cbn [bind].
  replace (_ || _) with false by lia. reflexivity.
Qed.

Lemma add_ok a b : wfi a -> wfi b -> i64r (fst a + fst b) -> i64r (snd a + snd b) ->
  add a b = Ok (fst a + fst b, snd a + snd b).
Proof.
  intros (A1 & A2 & A3) (B1 & B2 & B3) H1 H2. unfold add.
  rewrite !iadd64_ok by assumption. cbn [bind].
  apply make_ok. lia.
Qed.

Lemma sub_ok a b : wfi a -> wfi b -> i64r (fst a - snd b) -> i64r (snd a - fst b) ->
  sub a b = Ok (fst a - snd b, snd a - fst b).
Proof.
  intros (A1 & A2 & A3) (B1 & B2 & B3) H1 H2. unfold sub.
  rewrite !isub64_ok by assumption. cbn [bind].
  apply make_ok. lia.
Qed.

Lemma add_bad a b : ~ (i64r (fst a + fst b) /\ i64r (snd a + snd b)) ->
  i64r (fst a) -> i64r (fst b) ->
  add a b = Err SignedOverflow.
Proof.
  intros H Ha Hb. unfold add.
  assert (D : i64r (fst a + fst b) \/ ~ i64r (fst a + fst b)) by (unfold i64r; lia).
  destruct D as [D|D].
  - rewrite iadd64_ok by assumption. cbn [bind]. unfold iadd64, add64. rewrite i64_bad; [reflexivity|tauto].
  - unfold iadd64, add64. rewrite i64_bad; [reflexivity|assumption].
Qed.

Lemma sub_bad a b : ~ (i64r (fst a - snd b) /\ i64r (snd a - fst b)) ->
  i64r (fst a) -> i64r (snd b) ->
  sub a b = Err SignedOverflow.
Proof.
  intros H Ha Hb. unfold sub.
  assert (D : i64r (fst a - snd b) \/ ~ i64r (fst a - snd b)) by (unfold i64r; lia).
  destruct D as [D|D].
  - rewrite isub64_ok by assumption. cbn [bind]. unfold isub64, sub64. rewrite i64_bad; [reflexivity|tauto].
  - unfold isub64, sub64. rewrite i64_bad; [reflexivity|assumption].
Qed.

Lemma neg_ok a : wfi a -> -9223372036854775808 < fst a -> neg a = Ok (- snd a, - fst a).
Proof.
  intros (H0 & H1 & H2) H. unfold i64r in *. unfold neg. replace (fst a =? -9223372036854775808) with false by lia.
  unfold sub64. rewrite !i64_ok by lia. cbn [bind].
  replace (0 - snd a) with (- snd a) by lia. replace (0 - fst a) with (- fst a) by lia.
  apply make_ok. lia.
Qed.

Lemma red_itv_ok a : wfi a ->
  exists u v, red a = Ok (redz u, redz v) /\ mem u a /\ mem v a
    /\ forall x, mem x a -> redz u <= redz x <= redz v.
Proof.
  intros (H & H1 & H2). unfold red.
  destruct (min_red_ok (fst a) (snd a) H1 H2 H) as (u & Eu & Hu & Mu).
  destruct (max_red_ok (fst a) (snd a) H1 H2 H) as (v & Ev & Hv & Mv).
  rewrite Eu, Ev. cbn [bind]. exists u, v. rewrite make_ok by auto.
  split; [reflexivity|]. split; [exact Hu|]. split; [exact Hv|]. intros x Hx. split; auto.
Qed.

Lemma redz_i64 x : i64r x -> i64r (redz x).
Proof. unfold i64r, redz. lia. Qed.

Lemma red_twice_itv_ok a : wfi a ->
  exists lo hi, red_twice a = Ok (lo, hi)
    /\ (forall x, mem x a -> lo <= redz (redz x) <= hi)
    /\ (exists u v, lo = redz u /\ hi = redz v /\ (exists l h, mem l a /\ mem h a
          /\ redz l <= u <= redz h /\ redz l <= v <= redz h)).
Proof.
  intros (H & H1 & H2). unfold red_twice.
  destruct (min_red_ok (fst a) (snd a) H1 H2 H) as (u & Eu & Hu & Mu).
  destruct (max_red_ok (fst a) (snd a) H1 H2 H) as (v & Ev & Hv & Mv).
  rewrite Eu, Ev. cbn [bind].
  assert (Huv : redz u <= redz v) by auto. replace (redz u <=? redz v) with true by lia. cbn [cassert bind].
  assert (Iu : i64r (redz u)) by (apply redz_i64; unfold i64r in *; lia).
  assert (Iv : i64r (redz v)) by (apply redz_i64; unfold i64r in *; lia).
  destruct (min_red_ok (redz u) (redz v) Iu Iv Huv) as (u2 & Eu2 & Hu2 & Mu2).
  destruct (max_red_ok (redz u) (redz v) Iu Iv Huv) as (v2 & Ev2 & Hv2 & Mv2).
  rewrite Eu2, Ev2. cbn [bind]. rewrite make_ok by auto. exists (redz u2), (redz v2).
  split; [reflexivity|]. split.
  - intros x Hx. split; [apply Mu2 | apply Mv2]; auto.
  - exists u2, v2. split; [reflexivity|]. split; [reflexivity|]. exists u, v. auto.
Qed.

Lemma red_scale_ok k a : fst a <= snd a -> k <> 0 -> Z.abs k <= 2305843009213693952 ->
  sbnd (k * fst a) -> sbnd (k * snd a) ->
  exists u v, red_scale k a = Ok (redz (k * u), redz (k * v)) /\ mem u a /\ mem v a
    /\ forall x, mem x a -> redz (k * u) <= redz (k * x) <= redz (k * v).
Proof.
  intros H Hk Hb H1 H2. unfold red_scale.
  destruct (min_red_mul_ok (fst a) (snd a) k H Hk Hb H1 H2) as (u & Eu & Hu & Mu).
  destruct (max_red_mul_ok (fst a) (snd a) k H Hk Hb H1 H2) as (v & Ev & Hv & Mv).
  rewrite Eu, Ev. cbn [bind]. exists u, v. rewrite make_ok by auto.
  split; [reflexivity|]. split; [exact Hu|]. split; [exact Hv|]. intros x Hx. split; auto.
Qed.

Lemma rem_q_ok x : i64r x -> rem_q x = Ok (x mod 12289).
Proof.
  intros Hx. unfold rem_q, rem64.
  replace (12289 =? 0) with false by reflexivity.
  replace (12289 =? -1) with false by reflexivity. rewrite andb_false_r. cbn [bind].
  assert (E := rem_mod_Q x). assert (B := rem_bounds x). set (r := Z.rem x 12289) in *.
  destruct (r <? 0).
  - unfold add64. rewrite i64_ok by lia. cbn [bind]. rewrite E.
    replace (_ && _) with true by lia. reflexivity.
  - cbn [bind]. rewrite E. replace (_ && _) with true by lia. reflexivity.
Qed.

Lemma size_ok a : wfi a -> i64r (snd a - fst a) -> size a = Ok (snd a - fst a).
Proof.
  intros (H & _) Hs. unfold size. replace (fst a <=? snd a) with true by lia. cbn [cassert bind].
  unfold sub64. rewrite i64_ok by exact Hs. cbn [bind]. unfold i64r in Hs. rewrite u64_small by lia. reflexivity.
Qed.

Lemma size_bad a : wfi a -> ~ i64r (snd a - fst a) -> size a = Err SignedOverflow.
Proof.
  intros (H & _) Hs. unfold size. replace (fst a <=? snd a) with true by lia. cbn [cassert bind].
  unfold sub64. rewrite i64_bad by exact Hs. reflexivity.
Qed.

Lemma normal_ok a : wfi a -> i64r (snd a - fst a) ->
  exists r, normal a = Ok r /\ 0 <= fst r /\ fst r <= snd r /\ snd r <= 12288
    /\ (forall x, mem x a -> mem (x mod 12289) r)
    /\ (fst a / 12289 = snd a / 12289 -> r = (fst a mod 12289, snd a mod 12289)).
Proof.
  intros Hw Hs. unfold normal. rewrite size_ok by assumption. cbn [bind]. destruct Hw as (H & H1 & H2).
  unfold mem. destruct (Z.leb_spec 12288 (snd a - fst a)).
  - exists (0, 12288). rewrite make_ok by lia. cbn [fst snd]. split; [reflexivity|].
    repeat split; try lia.
    intros E. f_equal; lia.
  - rewrite !rem_q_ok by assumption. cbn [bind].
    destruct (Z.leb_spec (fst a mod 12289) (snd a mod 12289)) as [Hle|Hgt].
    + exists (fst a mod 12289, snd a mod 12289). rewrite make_ok by lia. cbn [fst snd].
      split; [reflexivity|]. repeat split; try lia; auto.
    + exists (0, 12288). rewrite make_ok by lia. cbn [fst snd]. split; [reflexivity|].
      repeat split; try lia.
Qed.

Lemma normal_inv3_ok a : wfi a ->
  exists r, normal_inv3 a = Ok r /\ 0 <= fst r /\ fst r <= snd r /\ snd r <= 12288
    /\ (forall x, mem x a -> mem ((x * 8193) mod 12289) r)
    /\ (fst a = snd a -> fst r = snd r).
Proof.
  intros (H & H1 & H2). unfold normal_inv3, mem. destruct (Z.eqb_spec (fst a) (snd a)) as [E|E].
  - rewrite rem_q_ok by assumption. cbn [bind]. unfold mul64. rewrite i64_ok by lia. cbn [bind].
    rewrite rem_q_ok by (unfold i64r; lia). cbn [bind]. rewrite make_ok by lia.
    eexists. split; [reflexivity|]. cbn [fst snd]. repeat split; try lia.
  - exists (0, 12288). rewrite make_ok by lia. cbn [fst snd]. split; [reflexivity|].
    repeat split; try lia.
Qed.

Lemma shift_ok a : 0 <= fst a -> fst a <= snd a -> snd a <= 12288 ->
  exists r, shift a = Ok r /\ -6144 <= fst r /\ fst r <= snd r /\ snd r <= 6144
    /\ forall x, mem x a -> mem (if 6144 <? x then x - 12289 else x) r.
Proof.
  intros H1 H2 H3. unfold shift, mem, sub64. replace (_ && _) with true by lia. cbn [cassert bind].
  destruct (Z.ltb_spec 6144 (fst a)).
  - rewrite !i64_ok by lia. cbn [bind]. rewrite make_ok by lia.
    eexists. split; [reflexivity|]. cbn [fst snd]. repeat split; try lia; destruct (Z.ltb_spec 6144 x); lia.
  - destruct (Z.leb_spec (snd a) 6144); rewrite make_ok by lia;
    (eexists; split; [reflexivity|]; cbn [fst snd]; repeat split; try lia; destruct (Z.ltb_spec 6144 x); lia).
Qed.

Lemma shift_bad a : ~ (0 <= fst a /\ fst a <= snd a /\ snd a <= 12288) -> shift a = Err AssertFail.
Proof. intros H. unfold shift. replace (_ && _) with false by lia. reflexivity. Qed.

Lemma correct_itv_ok a : -12289 <= fst a -> fst a <= snd a -> snd a <= 24577 ->
  exists r, correct a = Ok r /\ 0 <= fst r /\ fst r <= snd r /\ snd r <= 12288
    /\ forall x, mem x a -> mem (x mod 12289) r.
Proof.
  intros H1 H2 H3. unfold correct, mem, sub64, add64. replace (_ && _) with true by lia. cbn [cassert bind].
  destruct (Z.ltb_spec (snd a) 0); [|destruct (Z.leb_spec 12289 (fst a))].
  - rewrite !i64_ok by lia. cbn [bind].
    replace (_ && _) with true by lia. cbn [cassert bind]. rewrite make_ok by lia.
    eexists. split; [reflexivity|]. cbn [fst snd]. repeat split; try lia.
  - rewrite !i64_ok by lia. cbn [bind].
    replace (_ && _) with true by lia. cbn [cassert bind]. rewrite make_ok by lia.
    eexists. split; [reflexivity|]. cbn [fst snd]. repeat split; try lia.
  - destruct (Z.leb_spec 0 (fst a)), (Z.ltb_spec (snd a) 12289); cbn [andb]; rewrite make_ok by lia;
    (eexists; split; [reflexivity|]; cbn [fst snd]; repeat split; try lia).
Qed.

Lemma correct_itv_bad a : ~ (-12289 <= fst a /\ fst a <= snd a /\ snd a <= 24577) ->
  correct a = Err AssertFail.
Proof. intros H. unfold correct. replace (_ && _) with false by lia. reflexivity. Qed.
