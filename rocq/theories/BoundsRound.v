(** Proofs about src/red_bounds.c: intervals of constants, bounds after a round. *)

From Coq Require Import ZArith List Bool Lia.
From Verif Require Import CSem Spec Loops ModQ ModelBounds.
From Verif Require Import RedElem BoundsElem.
Import ListNotations.
Open Scope Z_scope.

Definition sgz (neg : bool) : Z := if neg then -1 else 1.

Lemma abs_prod u' u z b : 0 <= u' <= u -> - b <= z <= b -> - (u * b) <= u' * z <= u * b.
Proof. intros Hu Hz. nia. Qed.

(** One of the two loops of max_red_mul_interval: the constants are sgz neg * u,
    and u goes down from U to L + 1. *)
Lemma max_interval_loop neg cond a b B L U f (R : Z -> Prop) r0 x0 w0 :
  (forall st, cond st = (let '(stop, w, _, _, _) := st in negb stop && (L <? sgz neg * w))) ->
  0 <= L <= U -> - B <= a <= b -> b <= B -> U <= 2305843009213693952 -> U * B <= 4611686018427387904 -> B <= 4611686018427387904 ->
  (f > Z.to_nat (U - L))%nat ->
  0 <= r0 -> r0 = redz (w0 * x0) -> (r0 = 0 \/ (R w0 /\ a <= x0 <= b)) ->
  (forall u, L < u <= U -> R (sgz neg * u)) ->
  exists s w r x wm, cwhile f cond (max_interval_body neg a b) (false, sgz neg * U, r0, x0, w0) = Ok (s, w, r, x, wm)
    /\ r0 <= r /\ r = redz (wm * x) /\ (r = 0 \/ (R wm /\ a <= x <= b))
    /\ (- b <= a -> forall u z, L < u <= U -> a <= z <= b -> redz (sgz neg * u * z) <= r).
Proof.
  intros Hcond HLU Ha Hb HU HUb Hb' Hf Hr0 Er0 HR0 HR.
  destruct (cwhile_rule (fun '(s, w, r, x, wm) => r0 <= r /\ r = redz (wm * x) /\ (r = 0 \/ (R wm /\ a <= x <= b)) /\
      if s : bool then - b <= a -> forall u z, L < u <= U -> a <= z <= b -> redz (sgz neg * u * z) <= r
      else exists u0, w = sgz neg * u0 /\ L <= u0 <= U /\
           (- b <= a -> forall u z, u0 < u <= U -> a <= z <= b -> redz (sgz neg * u * z) <= r))
    (fun '(s, w, r, x, wm) => if s : bool then 0 else sgz neg * w - L)
    cond (max_interval_body neg a b))
    with (f := f) (st := (false, sgz neg * U, r0, x0, w0))
    as ([[[[s w] r] x] wm] & E & (Hr & Er & HRw & HI) & Hc).
  - intros [[[[s w] r] x] wm] (Hr & Er & HRw & HI) Hc. rewrite Hcond in Hc.
    destruct s; [discriminate|]. cbn [negb andb] in Hc.
    destruct HI as (u & Ew & Hu & HI).
    assert (Hsw : sgz neg * w = u) by (rewrite Ew; unfold sgz; destruct neg; ring).
    rewrite Hsw in Hc. assert (HLu : L < u) by lia.
    assert (HuB : u * B <= U * B) by (apply Z.mul_le_mono_nonneg_r; lia).
    assert (Hub : - (U * B) <= u * b <= U * B) by (assert (X := abs_prod u u b B ltac:(lia) ltac:(lia)); lia).
    assert (Hua : - (U * B) <= u * a <= U * B) by (assert (X := abs_prod u u a B ltac:(lia) ltac:(lia)); lia).
    assert (Hbreak : - b <= a -> forall u' z, 0 <= u' <= u -> a <= z <= b -> redz (sgz neg * u' * z) <= 0 - (- (u * b)) / 4096 + 12285).
    { intros Hba u' z Hu' Hz. 
      assert (HP : - (u * b) <= sgz neg * u' * z).
      { unfold sgz. destruct neg.
        - replace (-1 * u' * z) with (u' * - z) by ring. apply abs_prod; lia.
        - replace (1 * u' * z) with (u' * z) by ring. apply abs_prod; lia. }
      unfold redz. clear - HP. lia. }
    unfold max_interval_body.
    replace (if neg then w <? 0 else 0 <? w) with true by (rewrite Ew; unfold sgz; destruct neg; lia).
    cbn [cassert bind].
    assert (Ewb : (if neg then mul64 w b else do nw <- neg64 w; mul64 nw b) = Ok (- (u * b))).
    { rewrite Ew. unfold sgz, mul64, neg64, sub64. destruct neg.
      - replace (-1 * u * b) with (- (u * b)) by ring. apply i64_ok. lia.
      - rewrite i64_ok by lia. cbn [bind]. replace ((0 - 1 * u) * b) with (- (u * b)) by ring. apply i64_ok. lia. }
    rewrite Ewb. cbn [bind]. unfold neg64, sub64, add64, divd. rewrite shiftr12.
    rewrite i64_ok by (clear - Hub HUb; lia). cbn [bind]. rewrite i64_ok by (clear - Hub HUb; lia). cbn [bind].
    destruct (Z.leb_spec (0 - - (u * b) / 4096 + 12285) r) as [Hle|Hgt].
    { eexists. split; [reflexivity|]. split; [|lia]. repeat (split; [assumption|]).
      intros Hba u' z Hu' Hz. destruct (Z.ltb_spec u u'); [apply HI; lia|].
      etransitivity; [apply Hbreak; lia|exact Hle]. }
    destruct (max_red_mul_ok a b w) as (y & Ey & Hy & HM).
    + lia.
    + rewrite Ew. unfold sgz. destruct neg; lia.
    + rewrite Ew. unfold sgz. destruct neg; lia.
    + unfold sbnd. rewrite Ew. unfold sgz. destruct neg.
      * replace (-1 * u * a) with (- (u * a)) by ring. lia.
      * replace (1 * u * a) with (u * a) by ring. lia.
    + unfold sbnd. rewrite Ew. unfold sgz. destruct neg.
      * replace (-1 * u * b) with (- (u * b)) by ring. lia.
      * replace (1 * u * b) with (u * b) by ring. lia.
    + rewrite Ey. cbn [bind].
      assert (Ew' : (if neg then i64 (w + 1) else i64 (w - 1)) = Ok (sgz neg * (u - 1))).
      { rewrite Ew. unfold sgz. destruct neg; rewrite i64_ok by lia; f_equal; ring. }
      rewrite Ew'. cbn [bind].
      assert (Hm : sgz neg * (sgz neg * (u - 1)) = u - 1) by (unfold sgz; destruct neg; ring).
      destruct (Z.ltb_spec r (redz (w * y))) as [Hlt|Hge].
      * eexists. split; [reflexivity|]. split.
        { split; [lia|]. split; [reflexivity|].
          split; [right; split; [rewrite Ew; apply HR; lia|exact Hy]|].
          exists (u - 1). split; [reflexivity|]. split; [lia|]. intros Hba u' z Hu' Hz.
          destruct (Z.eq_dec u' u) as [->|]; [rewrite <- Ew; apply HM; lia|].
          assert (redz (sgz neg * u' * z) <= r) by (apply HI; lia). lia. }
        rewrite Hm, Hsw. lia.
      * eexists. split; [reflexivity|]. split.
        { repeat (split; [assumption|]).
          exists (u - 1). split; [reflexivity|]. split; [lia|]. intros Hba u' z Hu' Hz.
          destruct (Z.eq_dec u' u) as [->|]; [rewrite <- Ew; etransitivity; [apply HM; lia|exact Hge]|].
          apply HI; lia. }
        rewrite Hm, Hsw. lia.
  - split; [lia|]. split; [exact Er0|]. split; [exact HR0|].
    exists U. split; [reflexivity|]. split; [lia|]. intros; lia.
  - assert (Hm : sgz neg * (sgz neg * U) = U) by (unfold sgz; destruct neg; ring). rewrite Hm. lia.
  - exists s, w, r, x, wm. split; [exact E|]. repeat (split; [assumption|]).
    rewrite Hcond in Hc. destruct s; [exact HI|]. cbn [negb andb] in Hc.
    destruct HI as (u & Ew & Hu & HI).
    assert (Hsw : sgz neg * w = u) by (rewrite Ew; unfold sgz; destruct neg; ring).
    rewrite Hsw in Hc. assert (Hu0 : u = L) by lia. rewrite Hu0 in HI. exact HI.
Qed.

Lemma min_interval_loop neg cond a b B L U f (R : Z -> Prop) r0 x0 w0 :
  (forall st, cond st = (let '(stop, w, _, _, _) := st in negb stop && (L <? sgz neg * w))) ->
  0 <= L <= U -> - B <= a <= b -> b <= B -> U <= 2305843009213693952 -> U * B <= 4611686018427387904 -> B <= 4611686018427387904 ->
  (f > Z.to_nat (U - L))%nat ->
  r0 <= 0 -> r0 = redz (w0 * x0) -> (r0 = 0 \/ (R w0 /\ a <= x0 <= b)) ->
  (forall u, L < u <= U -> R (sgz neg * u)) ->
  exists s w r x wm, cwhile f cond (min_interval_body neg a b) (false, sgz neg * U, r0, x0, w0) = Ok (s, w, r, x, wm)
    /\ r <= r0 /\ r = redz (wm * x) /\ (r = 0 \/ (R wm /\ a <= x <= b))
    /\ (- b <= a -> forall u z, L < u <= U -> a <= z <= b -> r <= redz (sgz neg * u * z)).
Proof.
  intros Hcond HLU Ha Hb HU HUb Hb' Hf Hr0 Er0 HR0 HR.
  destruct (cwhile_rule (fun '(s, w, r, x, wm) => r <= r0 /\ r = redz (wm * x) /\ (r = 0 \/ (R wm /\ a <= x <= b)) /\
      if s : bool then - b <= a -> forall u z, L < u <= U -> a <= z <= b -> r <= redz (sgz neg * u * z)
      else exists u0, w = sgz neg * u0 /\ L <= u0 <= U /\
           (- b <= a -> forall u z, u0 < u <= U -> a <= z <= b -> r <= redz (sgz neg * u * z)))
    (fun '(s, w, r, x, wm) => if s : bool then 0 else sgz neg * w - L)
    cond (min_interval_body neg a b))
    with (f := f) (st := (false, sgz neg * U, r0, x0, w0))
    as ([[[[s w] r] x] wm] & E & (Hr & Er & HRw & HI) & Hc).
  - intros [[[[s w] r] x] wm] (Hr & Er & HRw & HI) Hc. rewrite Hcond in Hc.
    destruct s; [discriminate|]. cbn [negb andb] in Hc.
    destruct HI as (u & Ew & Hu & HI).
    assert (Hsw : sgz neg * w = u) by (rewrite Ew; unfold sgz; destruct neg; ring).
    rewrite Hsw in Hc. assert (HLu : L < u) by lia.
    assert (HuB : u * B <= U * B) by (apply Z.mul_le_mono_nonneg_r; lia).
    assert (Hub : - (U * B) <= u * b <= U * B) by (assert (X := abs_prod u u b B ltac:(lia) ltac:(lia)); lia).
    assert (Hua : - (U * B) <= u * a <= U * B) by (assert (X := abs_prod u u a B ltac:(lia) ltac:(lia)); lia).
    assert (Hbreak : - b <= a -> forall u' z, 0 <= u' <= u -> a <= z <= b -> 0 - (u * b) / 4096 <= redz (sgz neg * u' * z)).
    { intros Hba u' z Hu' Hz. 
      assert (HP : sgz neg * u' * z <= u * b).
      { unfold sgz. destruct neg.
        - replace (-1 * u' * z) with (u' * - z) by ring. apply abs_prod; lia.
        - replace (1 * u' * z) with (u' * z) by ring. apply abs_prod; lia. }
      unfold redz. clear - HP. lia. }
    unfold min_interval_body.
    replace (if neg then w <? 0 else 0 <? w) with true by (rewrite Ew; unfold sgz; destruct neg; lia).
    cbn [cassert bind].
    assert (Ewb : (if neg then do nw <- neg64 w; mul64 nw b else mul64 w b) = Ok (u * b)).
    { rewrite Ew. unfold sgz, mul64, neg64, sub64. destruct neg.
      - rewrite i64_ok by lia. cbn [bind]. replace ((0 - -1 * u) * b) with (u * b) by ring. apply i64_ok. lia.
      - replace (1 * u * b) with (u * b) by ring. apply i64_ok. lia. }
    rewrite Ewb. cbn [bind]. unfold neg64, sub64, add64, divd. rewrite shiftr12.
    rewrite i64_ok by (clear - Hub HUb; lia). cbn [bind].
    destruct (Z.leb_spec r (0 - (u * b) / 4096)) as [Hle|Hgt].
    { eexists. split; [reflexivity|]. split; [|lia]. repeat (split; [assumption|]).
      intros Hba u' z Hu' Hz. destruct (Z.ltb_spec u u'); [apply HI; lia|].
      etransitivity; [exact Hle|apply Hbreak; lia]. }
    destruct (min_red_mul_ok a b w) as (y & Ey & Hy & HM).
    + lia.
    + rewrite Ew. unfold sgz. destruct neg; lia.
    + rewrite Ew. unfold sgz. destruct neg; lia.
    + unfold sbnd. rewrite Ew. unfold sgz. destruct neg.
      * replace (-1 * u * a) with (- (u * a)) by ring. lia.
      * replace (1 * u * a) with (u * a) by ring. lia.
    + unfold sbnd. rewrite Ew. unfold sgz. destruct neg.
      * replace (-1 * u * b) with (- (u * b)) by ring. lia.
      * replace (1 * u * b) with (u * b) by ring. lia.
    + rewrite Ey. cbn [bind].
      assert (Ew' : (if neg then i64 (w + 1) else i64 (w - 1)) = Ok (sgz neg * (u - 1))).
      { rewrite Ew. unfold sgz. destruct neg; rewrite i64_ok by lia; f_equal; ring. }
      rewrite Ew'. cbn [bind].
      assert (Hm : sgz neg * (sgz neg * (u - 1)) = u - 1) by (unfold sgz; destruct neg; ring).
      destruct (Z.ltb_spec (redz (w * y)) r) as [Hlt|Hge].
      * eexists. split; [reflexivity|]. split.
        { split; [lia|]. split; [reflexivity|].
          split; [right; split; [rewrite Ew; apply HR; lia|exact Hy]|].
          exists (u - 1). split; [reflexivity|]. split; [lia|]. intros Hba u' z Hu' Hz.
          destruct (Z.eq_dec u' u) as [->|]; [rewrite <- Ew; apply HM; lia|].
          assert (r <= redz (sgz neg * u' * z)) by (apply HI; lia). lia. }
        rewrite Hm, Hsw. lia.
      * eexists. split; [reflexivity|]. split.
        { repeat (split; [assumption|]).
          exists (u - 1). split; [reflexivity|]. split; [lia|]. intros Hba u' z Hu' Hz.
          destruct (Z.eq_dec u' u) as [->|]; [rewrite <- Ew; etransitivity; [exact Hge|apply HM; lia]|].
          apply HI; lia. }
        rewrite Hm, Hsw. lia.
  - split; [lia|]. split; [exact Er0|]. split; [exact HR0|].
    exists U. split; [reflexivity|]. split; [lia|]. intros; lia.
  - assert (Hm : sgz neg * (sgz neg * U) = U) by (unfold sgz; destruct neg; ring). rewrite Hm. lia.
  - exists s, w, r, x, wm. split; [exact E|]. repeat (split; [assumption|]).
    rewrite Hcond in Hc. destruct s; [exact HI|]. cbn [negb andb] in Hc.
    destruct HI as (u & Ew & Hu & HI).
    assert (Hsw : sgz neg * w = u) by (rewrite Ew; unfold sgz; destruct neg; ring).
    rewrite Hsw in Hc. assert (Hu0 : u = L) by lia. rewrite Hu0 in HI. exact HI.
Qed.

(** The range in which the interval functions are used. *)
Definition wrange (b low high : Z) : Prop :=
  0 <= b <= 4611686018427387904 /\ low <= high
  /\ Z.abs low <= 2305843009213693952 /\ Z.abs high <= 2305843009213693952
  /\ Z.abs low * b <= 4611686018427387904 /\ Z.abs high * b <= 4611686018427387904.

Lemma redz_0 : redz 0 = 0.
Proof. reflexivity. Qed.

Lemma max_red_mul_interval_gen a b B low high : - B <= a <= b -> b <= B -> wrange B low high ->
  exists r x w, max_red_mul_interval a b low high = Ok (r, x, w)
    /\ 0 <= r /\ r = redz (w * x) /\ (r = 0 \/ (low <= w <= high /\ a <= x <= b))
    /\ (- b <= a -> forall z v, a <= z <= b -> low <= v <= high -> redz (v * z) <= r).
Proof.
  intros Ha HbB (Hb & Hlh & Hl & Hh & Hlb & Hhb). unfold max_red_mul_interval.
  replace ((a <=? b) && (low <=? high)) with true by lia. cbn [cassert bind].
  set (U1 := if low <? 0 then - low else 0).
  set (L1 := if 0 <=? high then 0 else - high - 1).
  assert (Eh : (if 0 <=? high then Ok 0 else add64 high 1) = Ok (- L1)).
  { unfold L1, add64. destruct (Z.leb_spec 0 high); [reflexivity|]. rewrite i64_ok by lia. f_equal. ring. }
  rewrite Eh. cbn [bind].
  destruct (max_interval_loop true (fun '(stop, w, _, _, _) => negb stop && (w <? - L1)) a b B L1 U1
    (fuel (- L1 - (if low <? 0 then low else 0))) (fun w => low <= w <= high) 0 0 0)
    as (s1 & w1 & r1 & x1 & wm1 & E1 & Hr1 & Er1 & HR1 & HM1).
  - intros [[[[s w] r] x] wm]. unfold sgz. destruct (negb s); [|reflexivity]. cbn [andb]. lia.
  - unfold L1, U1. destruct (Z.leb_spec 0 high); destruct (Z.ltb_spec low 0); lia.
  - lia.
  - lia.
  - unfold U1. destruct (Z.ltb_spec low 0); lia.
  - unfold U1. destruct (Z.ltb_spec low 0); [|lia]. replace (- low) with (Z.abs low) by lia. exact Hlb.
  - lia.
  - unfold fuel, U1. destruct (Z.ltb_spec low 0); lia.
  - lia.
  - reflexivity.
  - left; reflexivity.
  - unfold sgz, U1, L1. intros u Hu. destruct (Z.leb_spec 0 high); destruct (Z.ltb_spec low 0); lia.
  - replace (sgz true * U1) with (if low <? 0 then low else 0) in E1
      by (unfold sgz, U1; destruct (low <? 0); ring).
    rewrite E1. cbn [bind].
    set (L2 := if low <=? 0 then 0 else low - 1).
    assert (El : (if low <=? 0 then Ok 0 else sub64 low 1) = Ok L2).
    { unfold L2, sub64. destruct (Z.leb_spec low 0); [reflexivity|]. rewrite i64_ok by lia. reflexivity. }
    rewrite El. cbn [bind]. set (U2 := if 0 <? high then high else 0).
    destruct (max_interval_loop false (fun '(stop, w, _, _, _) => negb stop && (L2 <? w)) a b B L2 U2
      (fuel (U2 - L2)) (fun w => low <= w <= high) r1 x1 wm1)
      as (s2 & w2 & r2 & x2 & wm2 & E2 & Hr2 & Er2 & HR2 & HM2).
    + intros [[[[s w] r] x] wm]. unfold sgz. destruct (negb s); [|reflexivity]. cbn [andb]. lia.
    + unfold L2, U2. destruct (Z.leb_spec low 0); destruct (Z.ltb_spec 0 high); lia.
    + lia.
    + lia.
    + unfold U2. destruct (Z.ltb_spec 0 high); lia.
    + unfold U2. destruct (Z.ltb_spec 0 high); [|lia]. replace high with (Z.abs high) by lia. exact Hhb.
    + lia.
    + unfold fuel. lia.
    + exact Hr1.
    + exact Er1.
    + exact HR1.
    + unfold sgz, U2, L2. intros u Hu. destruct (Z.leb_spec low 0); destruct (Z.ltb_spec 0 high); lia.
    + replace (sgz false * U2) with U2 in E2 by (unfold sgz; ring). rewrite E2. cbn [bind].
      exists r2, x2, wm2. split; [reflexivity|]. split; [lia|]. split; [exact Er2|]. split; [exact HR2|].
      { intros Hba z v Hz Hv. destruct (Z.lt_trichotomy v 0) as [Hn|[->|Hp]].
        { etransitivity; [|exact Hr2]. specialize (HM1 Hba (- v) z).
          replace (sgz true * - v * z) with (v * z) in HM1 by (unfold sgz; ring).
          apply HM1; [|exact Hz]. unfold L1, U1. destruct (Z.leb_spec 0 high); destruct (Z.ltb_spec low 0); lia. }
        { rewrite Z.mul_0_l, redz_0. lia. }
        specialize (HM2 Hba v z). replace (sgz false * v * z) with (v * z) in HM2 by (unfold sgz; ring).
        apply HM2; [|exact Hz]. unfold L2, U2. destruct (Z.leb_spec low 0); destruct (Z.ltb_spec 0 high); lia. }
Qed.

Lemma max_red_mul_interval_ok b low high : wrange b low high ->
  exists r x w, max_red_mul_interval (- b) b low high = Ok (r, x, w)
    /\ (exists x w, - b <= x <= b /\ low <= w <= high /\ r = redz (w * x))
    /\ forall z v, - b <= z <= b -> low <= v <= high -> redz (v * z) <= r.
Proof.
  intros HW. assert (HW' := HW). destruct HW' as (Hb & Hlh & _).
  destruct (max_red_mul_interval_gen (- b) b b low high) as (r & x & w & E & H0 & Er & HR & HM); try assumption; try lia.
  exists r, x, w. split; [exact E|]. split; [|apply HM; lia].
  destruct HR as [Hr|[Hw Hx]]; [|exists x, w; auto]. exists 0, low. split; [lia|]. split; [lia|].
  rewrite Hr, Z.mul_0_r. reflexivity.
Qed.

Lemma min_red_mul_interval_gen a b B low high : - B <= a <= b -> b <= B -> wrange B low high -> low <> 0 -> high <> 0 ->
  exists r x w, min_red_mul_interval a b low high = Ok (r, x, w)
    /\ r <= 0 /\ r = redz (w * x) /\ (r = 0 \/ (low <= w <= high /\ a <= x <= b))
    /\ (- b <= a -> forall z v, a <= z <= b -> low <= v <= high -> r <= redz (v * z)).
Proof.
  intros Ha HbB (Hb & Hlh & Hl & Hh & Hlb & Hhb) Hl0 Hh0. unfold min_red_mul_interval.
  replace ((a <=? b) && (low <=? high)) with true by lia. cbn [cassert bind].
  set (U1 := if low <? 0 then - low else 0).
  set (L1 := if 0 <? high then 0 else - high - 1).
  assert (Eh : (if 0 <? high then Ok 0 else add64 high 1) = Ok (- L1)).
  { unfold L1, add64. destruct (Z.ltb_spec 0 high); [reflexivity|]. rewrite i64_ok by lia. f_equal. ring. }
  rewrite Eh. cbn [bind].
  destruct (min_interval_loop true (fun '(stop, w, _, _, _) => negb stop && (w <? - L1)) a b B L1 U1
    (fuel (- L1 - (if low <? 0 then low else 0))) (fun w => low <= w <= high) 0 0 0)
    as (s1 & w1 & r1 & x1 & wm1 & E1 & Hr1 & Er1 & HR1 & HM1).
  - intros [[[[s w] r] x] wm]. unfold sgz. destruct (negb s); [|reflexivity]. cbn [andb]. lia.
  - unfold L1, U1. destruct (Z.ltb_spec 0 high); destruct (Z.ltb_spec low 0); lia.
  - lia.
  - lia.
  - unfold U1. destruct (Z.ltb_spec low 0); lia.
  - unfold U1. destruct (Z.ltb_spec low 0); [|lia]. replace (- low) with (Z.abs low) by lia. exact Hlb.
  - lia.
  - unfold fuel, U1. destruct (Z.ltb_spec low 0); lia.
  - lia.
  - reflexivity.
  - left; reflexivity.
  - unfold sgz, U1, L1. intros u Hu. destruct (Z.ltb_spec 0 high); destruct (Z.ltb_spec low 0); lia.
  - replace (sgz true * U1) with (if low <? 0 then low else 0) in E1
      by (unfold sgz, U1; destruct (low <? 0); ring).
    rewrite E1. cbn [bind].
    set (L2 := if low <? 0 then 0 else low - 1).
    assert (El : (if low <? 0 then Ok 0 else sub64 low 1) = Ok L2).
    { unfold L2, sub64. destruct (Z.ltb_spec low 0); [reflexivity|]. rewrite i64_ok by lia. reflexivity. }
    rewrite El. cbn [bind]. set (U2 := if 0 <? high then high else 0).
    destruct (min_interval_loop false (fun '(stop, w, _, _, _) => negb stop && (L2 <? w)) a b B L2 U2
      (fuel (U2 - L2)) (fun w => low <= w <= high) r1 x1 wm1)
      as (s2 & w2 & r2 & x2 & wm2 & E2 & Hr2 & Er2 & HR2 & HM2).
    + intros [[[[s w] r] x] wm]. unfold sgz. destruct (negb s); [|reflexivity]. cbn [andb]. lia.
    + unfold L2, U2. destruct (Z.ltb_spec low 0); destruct (Z.ltb_spec 0 high); lia.
    + lia.
    + lia.
    + unfold U2. destruct (Z.ltb_spec 0 high); lia.
    + unfold U2. destruct (Z.ltb_spec 0 high); [|lia]. replace high with (Z.abs high) by lia. exact Hhb.
    + lia.
    + unfold fuel. lia.
    + exact Hr1.
    + exact Er1.
    + exact HR1.
    + unfold sgz, U2, L2. intros u Hu. destruct (Z.ltb_spec low 0); destruct (Z.ltb_spec 0 high); lia.
    + replace (sgz false * U2) with U2 in E2 by (unfold sgz; ring). rewrite E2. cbn [bind].
      exists r2, x2, wm2. split; [reflexivity|]. split; [lia|]. split; [exact Er2|]. split; [exact HR2|].
      { intros Hba z v Hz Hv. destruct (Z.lt_trichotomy v 0) as [Hn|[->|Hp]].
        { etransitivity; [exact Hr2|]. specialize (HM1 Hba (- v) z).
          replace (sgz true * - v * z) with (v * z) in HM1 by (unfold sgz; ring).
          apply HM1; [|exact Hz]. unfold L1, U1. destruct (Z.ltb_spec 0 high); destruct (Z.ltb_spec low 0); lia. }
        { rewrite Z.mul_0_l, redz_0. lia. }
        specialize (HM2 Hba v z). replace (sgz false * v * z) with (v * z) in HM2 by (unfold sgz; ring).
        apply HM2; [|exact Hz]. unfold L2, U2. destruct (Z.ltb_spec low 0); destruct (Z.ltb_spec 0 high); lia. }
Qed.

Lemma min_red_mul_interval_ok b low high : wrange b low high -> low <> 0 -> high <> 0 ->
  exists r x w, min_red_mul_interval (- b) b low high = Ok (r, x, w)
    /\ (exists x w, - b <= x <= b /\ low <= w <= high /\ r = redz (w * x))
    /\ forall z v, - b <= z <= b -> low <= v <= high -> r <= redz (v * z).
Proof.
  intros HW Hl0 Hh0. assert (HW' := HW). destruct HW' as (Hb & Hlh & _).
  destruct (min_red_mul_interval_gen (- b) b b low high) as (r & x & w & E & H0 & Er & HR & HM); try assumption; try lia.
  exists r, x, w. split; [exact E|]. split; [|apply HM; lia].
  destruct HR as [Hr|[Hw Hx]]; [|exists x, w; auto]. exists 0, low. split; [lia|]. split; [lia|].
  rewrite Hr, Z.mul_0_r. reflexivity.
Qed.

(** ** Bounds after one butterfly *)

Lemma redz_abs v M : - M <= v <= M -> - (M / 4096) <= redz v <= M / 4096 + 12286.
Proof. unfold redz. lia. Qed.

(** [c] bounds x + red(w*y) and x - red(w*y) for all |x|, |y| <= b and w in W. *)
Definition ct_sound (b c : Z) (W : Z -> Prop) : Prop :=
  forall x y w, - b <= x <= b -> - b <= y <= b -> W w ->
    Z.abs (x + redz (w * y)) <= c /\ Z.abs (x - redz (w * y)) <= c.
Definition ct_tight (b c : Z) (W : Z -> Prop) : Prop :=
  exists x y w, - b <= x <= b /\ - b <= y <= b /\ W w
    /\ (Z.abs (x + redz (w * y)) = c \/ Z.abs (x - redz (w * y)) = c).
(** [c] bounds x + y and red(w*(x-y)). *)
Definition gs_sound (b c : Z) (W : Z -> Prop) : Prop :=
  forall x y w, - b <= x <= b -> - b <= y <= b -> W w ->
    Z.abs (x + y) <= c /\ Z.abs (redz (w * (x - y))) <= c.
Definition gs_tight (b c : Z) (W : Z -> Prop) : Prop :=
  exists x y w, - b <= x <= b /\ - b <= y <= b /\ W w
    /\ (Z.abs (x + y) = c \/ Z.abs (redz (w * (x - y))) = c).

Lemma ct_combine_ok b mn mx (W : Z -> Prop) :
  0 <= b <= 4611686018427387904 -> (exists w, W w) ->
  (exists y w, - b <= y <= b /\ W w /\ mn = redz (w * y)) ->
  (exists y w, - b <= y <= b /\ W w /\ mx = redz (w * y)) ->
  (forall y w, - b <= y <= b -> W w -> mn <= redz (w * y) <= mx) ->
  - 1125899906842624 <= mn -> mx <= 1125899906854912 ->
  exists c, ct_combine b mn mx = Ok c /\ ct_sound b c W /\ ct_tight b c W /\ c = b + Z.max mx (- mn) /\ mn <= 0 <= mx.
Proof.
  intros Hb (w0 & Hw0) (ya & wa & Hya & Hwa & Ea) (yb & wb & Hyb & Hwb & Eb) HB Hmn Hmx.
  assert (H0 : mn <= 0 <= mx).
  { specialize (HB 0 w0 ltac:(lia) Hw0). rewrite Z.mul_0_r, redz_0 in HB. exact HB. }
  unfold ct_combine, add64, sub64. rewrite i64_ok by lia. cbn [bind]. rewrite i64_ok by lia. cbn [bind].
  replace (b + mx <? 0) with false by lia. replace (b - mn <? 0) with false by lia. cbn [bind].
  exists (if b + mx <? b - mn then b - mn else b + mx). split; [reflexivity|]. split; [|split; [|split; [|exact H0]]].
  - intros x y w Hx Hy Hw. specialize (HB y w Hy Hw). destruct (Z.ltb_spec (b + mx) (b - mn)); lia.
  - destruct (Z.ltb_spec (b + mx) (b - mn)).
    + exists b, ya, wa. split; [lia|]. split; [exact Hya|]. split; [exact Hwa|]. right. rewrite <- Ea. lia.
    + exists b, yb, wb. split; [lia|]. split; [exact Hyb|]. split; [exact Hwb|]. left. rewrite <- Eb. lia.
  - destruct (Z.ltb_spec (b + mx) (b - mn)); lia.
Qed.

Lemma gs_combine_ok b mn mx (W : Z -> Prop) :
  0 <= b <= 2305843009213693952 -> (exists w, W w) ->
  (exists y w, - (2 * b) <= y <= 2 * b /\ W w /\ mn = redz (w * y)) ->
  (exists y w, - (2 * b) <= y <= 2 * b /\ W w /\ mx = redz (w * y)) ->
  (forall y w, - (2 * b) <= y <= 2 * b -> W w -> mn <= redz (w * y) <= mx) ->
  - 1125899906842624 <= mn -> mx <= 1125899906854912 ->
  exists c, gs_combine b mn mx = Ok c /\ gs_sound b c W /\ gs_tight b c W /\ c = Z.max (2 * b) (Z.max mx (- mn)).
Proof.
  intros Hb (w0 & Hw0) (ya & wa & Hya & Hwa & Ea) (yb & wb & Hyb & Hwb & Eb) HB Hmn Hmx.
  assert (H0 : mn <= 0 <= mx).
  { specialize (HB 0 w0 ltac:(lia) Hw0). rewrite Z.mul_0_r, redz_0 in HB. exact HB. }
  assert (HD : forall y, - (2 * b) <= y <= 2 * b -> exists u v, - b <= u <= b /\ - b <= v <= b /\ y = u - v).
  { intros y Hy. exists (y / 2), (y / 2 - y). lia. }
  unfold gs_combine, neg64, sub64, mul64. 
  replace (mx <? 0) with false by lia.
  set (b1 := if 0 <? mn then mx else if 0 - mn <? mx then mx else 0 - mn).
  assert (Eb1 : (if 0 <? mn then Ok mx else do nm <- i64 (0 - mn); Ok (if nm <? mx then mx else nm)) = Ok b1).
  { unfold b1. destruct (0 <? mn); [reflexivity|]. rewrite i64_ok by lia. reflexivity. }
  rewrite Eb1. cbn [bind]. rewrite i64_ok by lia. cbn [bind].
  assert (Hb1 : b1 = Z.max mx (- mn)).
  { unfold b1. destruct (Z.ltb_spec 0 mn); [lia|]. destruct (Z.ltb_spec (0 - mn) mx); lia. }
  exists (if b1 <? 2 * b then 2 * b else b1). split; [reflexivity|]. split; [|split].
  - intros x y w Hx Hy Hw. specialize (HB (x - y) w ltac:(lia) Hw). destruct (Z.ltb_spec b1 (2 * b)); lia.
  - destruct (Z.ltb_spec b1 (2 * b)).
    + exists b, b, w0. split; [lia|]. split; [lia|]. split; [exact Hw0|]. left. lia.
    + destruct (Z.leb_spec (- mn) mx).
      * destruct (HD yb Hyb) as (u & v & Hu & Hv & E). exists u, v, wb. split; [exact Hu|]. split; [exact Hv|].
        split; [exact Hwb|]. right. rewrite <- E, <- Eb. lia.
      * destruct (HD ya Hya) as (u & v & Hu & Hv & E). exists u, v, wa. split; [exact Hu|]. split; [exact Hv|].
        split; [exact Hwa|]. right. rewrite <- E, <- Ea. lia.
  - destruct (Z.ltb_spec b1 (2 * b)); lia.
Qed.

Definition fixed_range (b w : Z) : Prop :=
  0 <= b <= 2305843009213693952 /\ w <> 0 /\ Z.abs w <= 2305843009213693952 /\ Z.abs w * b <= 2305843009213693952.

Lemma abs_mul_range w y b : - b <= y <= b -> - (Z.abs w * b) <= w * y <= Z.abs w * b.
Proof. intros. destruct (Z.leb_spec 0 w); [rewrite Z.abs_eq by lia|rewrite Z.abs_neq by lia]; nia. Qed.

Lemma fixed_ext b w : fixed_range b w -> exists mn mx m1 m2, min_red_mul (- b) b w = Ok (mn, m1)
  /\ max_red_mul (- b) b w = Ok (mx, m2)
  /\ (exists y v, - b <= y <= b /\ v = w /\ mn = redz (v * y))
  /\ (exists y v, - b <= y <= b /\ v = w /\ mx = redz (v * y))
  /\ (forall y v, - b <= y <= b -> v = w -> mn <= redz (v * y) <= mx)
  /\ - (Z.abs w * b / 4096) <= mn /\ mx <= Z.abs w * b / 4096 + 12286.
Proof.
  intros (Hb & Hw & Haw & Hwb).
  assert (HM : forall y, - b <= y <= b -> - (Z.abs w * b) <= w * y <= Z.abs w * b) by (intros; apply abs_mul_range; assumption).
  destruct (min_red_mul_ok (- b) b w) as (x1 & E1 & H1 & M1); try lia.
  { unfold sbnd. specialize (HM (- b) ltac:(lia)). lia. } { unfold sbnd. specialize (HM b ltac:(lia)). lia. }
  destruct (max_red_mul_ok (- b) b w) as (x2 & E2 & H2 & M2); try lia.
  { unfold sbnd. specialize (HM (- b) ltac:(lia)). lia. } { unfold sbnd. specialize (HM b ltac:(lia)). lia. }
  exists (redz (w * x1)), (redz (w * x2)), x1, x2. split; [exact E1|]. split; [exact E2|].
  split; [exists x1, w; auto|]. split; [exists x2, w; auto|]. split.
  - intros y v Hy ->. split; [apply M1; lia|apply M2; lia].
  - split; [apply (redz_abs _ _ (HM x1 H1))|apply (redz_abs _ _ (HM x2 H2))].
Qed.

Lemma div_small_bound M : 0 <= M <= 4611686018427387904 -> 0 <= M / 4096 <= 1125899906842624.
Proof. lia. Qed.

Lemma ct_bound_fixed_ok b w : fixed_range b w ->
  exists c, ct_bound_fixed b w = Ok c /\ ct_sound b c (eq w) /\ ct_tight b c (eq w)
    /\ b <= c <= b + Z.abs w * b / 4096 + 12286 /\ b + Z.abs w * b / 4096 <= c.
Proof.
  intros HR. destruct (fixed_ext b w HR) as (mn & mx & m1 & m2 & E1 & E2 & A1 & A2 & HB & B1 & B2).
  destruct HR as (Hb & Hw & Haw & Hwb).
  assert (HD := div_small_bound (Z.abs w * b) ltac:(nia)).
  unfold ct_bound_fixed, neg64, sub64. replace (0 <=? b) with true by lia. cbn [cassert bind].
  rewrite i64_ok by lia. cbn [bind]. replace (0 - b) with (- b) by ring. rewrite E1. cbn [bind]. rewrite E2. cbn [bind].
  assert (LB : Z.abs w * b / 4096 <= mx).
  { assert (redz (- (Z.abs w * b)) <= mx).
    { destruct (Z.leb_spec 0 w).
      - specialize (HB (- b) w ltac:(lia) eq_refl). replace (- (Z.abs w * b)) with (w * - b) by (rewrite Z.abs_eq by lia; ring). lia.
      - specialize (HB b w ltac:(lia) eq_refl). replace (- (Z.abs w * b)) with (w * b) by (rewrite Z.abs_neq by lia; ring). lia. }
    unfold redz in H. clear - H. lia. }
  destruct (ct_combine_ok b mn mx (eq w)) as (c & Ec & S & T & Hc & H0).
  - lia.
  - eauto.
  - destruct A1 as (y & v & Hy & -> & E). exists y, w. auto.
  - destruct A2 as (y & v & Hy & -> & E). exists y, w. auto.
  - intros y v Hy <-. apply HB; auto.
  - lia.
  - lia.
  - exists c. split; [exact Ec|]. split; [exact S|]. split; [exact T|]. lia.
Qed.

Lemma gs_bound_fixed_ok b w : fixed_range (2 * b) w ->
  exists c, gs_bound_fixed b w = Ok c /\ gs_sound b c (eq w) /\ gs_tight b c (eq w)
    /\ 2 * b <= c <= Z.max (2 * b) (Z.abs w * (2 * b) / 4096 + 12286) /\ Z.abs w * (2 * b) / 4096 <= c.
Proof.
  intros HR. destruct (fixed_ext (2 * b) w HR) as (mn & mx & m1 & m2 & E1 & E2 & A1 & A2 & HB & B1 & B2).
  destruct HR as (Hb & Hw & Haw & Hwb).
  assert (HD := div_small_bound (Z.abs w * (2 * b)) ltac:(nia)).
  unfold gs_bound_fixed, mul64. replace (0 <=? b) with true by lia. cbn [cassert bind].
  rewrite i64_ok by lia. cbn [bind]. rewrite i64_ok by lia. cbn [bind].
  replace (-2 * b) with (- (2 * b)) by ring. rewrite E1. cbn [bind]. rewrite E2. cbn [bind].
  assert (LB : Z.abs w * (2 * b) / 4096 <= mx).
  { assert (redz (- (Z.abs w * (2 * b))) <= mx).
    { destruct (Z.leb_spec 0 w).
      - specialize (HB (- (2 * b)) w ltac:(lia) eq_refl). replace (- (Z.abs w * (2 * b))) with (w * - (2 * b)) by (rewrite Z.abs_eq by lia; ring). lia.
      - specialize (HB (2 * b) w ltac:(lia) eq_refl). replace (- (Z.abs w * (2 * b))) with (w * (2 * b)) by (rewrite Z.abs_neq by lia; ring). lia. }
    unfold redz in H. clear - H. lia. }
  destruct (gs_combine_ok b mn mx (eq w)) as (c & Ec & S & T & Hc).
  - lia.
  - eauto.
  - destruct A1 as (y & v & Hy & -> & E). exists y, w. auto.
  - destruct A2 as (y & v & Hy & -> & E). exists y, w. auto.
  - intros y v Hy <-. apply HB; auto.
  - lia.
  - lia.
  - exists c. split; [exact Ec|]. split; [exact S|]. split; [exact T|]. lia.
Qed.

(** Intervals of constants. *)
Definition cbnd (b low high : Z) : Prop :=
  0 <= b <= 2305843009213693952 /\ low <= high
  /\ Z.abs low <= 2305843009213693952 /\ Z.abs high <= 2305843009213693952
  /\ Z.abs low * b <= 2305843009213693952 /\ Z.abs high * b <= 2305843009213693952.

Lemma interval_ext b low high : cbnd b low high -> low <> 0 -> high <> 0 ->
  exists mn mx x1 w1 x2 w2, min_red_mul_interval (- b) b low high = Ok (mn, x1, w1)
  /\ max_red_mul_interval (- b) b low high = Ok (mx, x2, w2)
  /\ (exists y v, - b <= y <= b /\ low <= v <= high /\ mn = redz (v * y))
  /\ (exists y v, - b <= y <= b /\ low <= v <= high /\ mx = redz (v * y))
  /\ (forall y v, - b <= y <= b -> low <= v <= high -> mn <= redz (v * y) <= mx)
  /\ - 1125899906842624 <= mn /\ mx <= 1125899906854912.
Proof.
  intros (Hb & Hlh & Hl & Hh & Hlb & Hhb) Hl0 Hh0.
  assert (HW : wrange b low high) by (unfold wrange; lia).
  destruct (min_red_mul_interval_ok b low high HW Hl0 Hh0) as (mn & x1 & w1 & E1 & A1 & M1).
  destruct (max_red_mul_interval_ok b low high HW) as (mx & x2 & w2 & E2 & A2 & M2).
  assert (HM : forall y v, - b <= y <= b -> low <= v <= high -> -2305843009213693952 <= v * y <= 2305843009213693952).
  { intros y v Hy Hv. assert (Hx := abs_mul_range v y b Hy).
    assert (Z.abs v * b <= 2305843009213693952); [|lia].
    assert (Z.abs v <= Z.abs low \/ Z.abs v <= Z.abs high) as [H|H] by lia.
    - assert (Z.abs v * b <= Z.abs low * b) by (apply Z.mul_le_mono_nonneg_r; lia). lia.
    - assert (Z.abs v * b <= Z.abs high * b) by (apply Z.mul_le_mono_nonneg_r; lia). lia. }
  exists mn, mx, x1, w1, x2, w2. repeat (split; [assumption|]). split; [|split].
  - intros y v Hy Hv. split; [apply M1|apply M2]; assumption.
  - destruct A1 as (y & v & Hy & Hv & ->).
    specialize (HM y v Hy Hv). unfold redz. clear - HM. lia.
  - destruct A2 as (y & v & Hy & Hv & ->). specialize (HM y v Hy Hv). unfold redz. clear - HM. lia.
Qed.

Lemma ct_bound_ok b low high : cbnd b low high -> low <> 0 -> high <> 0 ->
  exists c, ct_bound b low high = Ok c /\ ct_sound b c (fun w => low <= w <= high)
    /\ ct_tight b c (fun w => low <= w <= high).
Proof.
  intros HR Hl0 Hh0. destruct (interval_ext b low high HR Hl0 Hh0) as (mn & mx & x1 & w1 & x2 & w2 & E1 & E2 & A1 & A2 & HB & B1 & B2).
  destruct HR as (Hb & Hlh & _).
  unfold ct_bound, neg64, sub64. replace ((0 <=? b) && (low <=? high)) with true by lia. cbn [cassert bind].
  rewrite i64_ok by lia. cbn [bind]. replace (0 - b) with (- b) by ring. rewrite E1. cbn [bind]. rewrite E2. cbn [bind].
  destruct (ct_combine_ok b mn mx (fun w => low <= w <= high)) as (c & Ec & S & T & Hc & H0); try assumption.
  - lia.
  - exists low. lia.
  - exists c. auto.
Qed.

Lemma gs_bound_ok b low high : cbnd (2 * b) low high -> low <> 0 -> high <> 0 ->
  exists c, gs_bound b low high = Ok c /\ gs_sound b c (fun w => low <= w <= high)
    /\ gs_tight b c (fun w => low <= w <= high).
Proof.
  intros HR Hl0 Hh0. destruct (interval_ext (2 * b) low high HR Hl0 Hh0) as (mn & mx & x1 & w1 & x2 & w2 & E1 & E2 & A1 & A2 & HB & B1 & B2).
  destruct HR as (Hb & Hlh & _).
  unfold gs_bound, mul64. replace ((0 <=? b) && (low <=? high)) with true by lia. cbn [cassert bind].
  rewrite i64_ok by lia. cbn [bind]. rewrite i64_ok by lia. cbn [bind]. replace (-2 * b) with (- (2 * b)) by ring. rewrite E1. cbn [bind]. rewrite E2. cbn [bind].
  destruct (gs_combine_ok b mn mx (fun w => low <= w <= high)) as (c & Ec & S & T & Hc); try assumption.
  - lia.
  - exists low. lia.
  - exists c. auto.
Qed.
