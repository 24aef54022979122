(** Proofs about src/red_bounds.c: extrema of the reduction. *)

From Coq Require Import ZArith List Bool Lia.
From Verif Require Import CSem Spec Loops ModQ ModelBounds.
From Verif Require Import RedElem.
Import ListNotations.
Open Scope Z_scope.

Definition i64r (x : Z) : Prop := -9223372036854775808 <= x <= 9223372036854775807.

Lemma red_ok64 x : i64r x -> ModelBounds.red x = Ok (redz x).
Proof.
  unfold i64r. intros H. unfold ModelBounds.red, mul64, sub64. rewrite land4095, shiftr12.
  rewrite i64_ok by lia. cbn [bind]. rewrite i64_ok by lia. reflexivity.
Qed.

Lemma lor4095 a : Z.lor a 4095 = 4096 * (a / 4096) + 4095.
Proof.
  replace (4096 * (a / 4096) + 4095) with (Z.lor (Z.shiftl (Z.shiftr a 12) 12) (Z.ones 12)).
  - change 4095 with (Z.ones 12). apply Z.bits_inj'. intros i Hi. rewrite !Z.lor_spec.
    destruct (Z.ltb_spec i 12).
    + rewrite Z.ones_spec_low by lia. rewrite !orb_true_r. reflexivity.
    + rewrite Z.shiftl_spec, Z.shiftr_spec by lia. f_equal. f_equal. lia.
  - rewrite <- Z.lxor_lor, <- Z.add_nocarry_lxor.
    + rewrite Z.shiftl_mul_pow2, shiftr12 by lia. change (2 ^ 12) with 4096. change (Z.ones 12) with 4095. lia.
    + rewrite Z.land_ones by lia. rewrite Z.shiftl_mul_pow2 by lia. rewrite Z.mod_mul; [reflexivity|discriminate].
    + rewrite Z.land_ones by lia. rewrite Z.shiftl_mul_pow2 by lia. rewrite Z.mod_mul; [reflexivity|discriminate].
Qed.

Lemma land_not4095 b : Z.land b (Z.lnot 4095) = 4096 * (b / 4096).
Proof.
  change 4095 with (Z.ones 12). rewrite <- Z.ldiff_land. rewrite Z.ldiff_ones_r by lia.
  rewrite Z.shiftl_mul_pow2, shiftr12 by lia. change (2 ^ 12) with 4096. lia.
Qed.

Lemma max_red_ok a b : i64r a -> i64r b -> a <= b ->
  exists m, max_red a b = Ok (redz m, m) /\ a <= m <= b /\ forall x, a <= x <= b -> redz x <= redz m.
Proof.
  unfold i64r. intros Ha Hb Hab. unfold max_red. replace (a <=? b) with true by lia. cbn [cassert bind].
  rewrite lor4095. exists (if 4096 * (a / 4096) + 4095 <=? b then 4096 * (a / 4096) + 4095 else b).
  rewrite red_ok64 by (unfold i64r; destruct (Z.leb_spec (4096 * (a / 4096) + 4095) b); lia).
  cbn [bind]. split; [reflexivity|].
  destruct (Z.leb_spec (4096 * (a / 4096) + 4095) b); (split; [lia|]); intros x Hx; unfold redz; lia.
Qed.

Lemma min_red_ok a b : i64r a -> i64r b -> a <= b ->
  exists m, min_red a b = Ok (redz m, m) /\ a <= m <= b /\ forall x, a <= x <= b -> redz m <= redz x.
Proof.
  unfold i64r. intros Ha Hb Hab. unfold min_red. replace (a <=? b) with true by lia. cbn [cassert bind].
  rewrite land_not4095. exists (if a <=? 4096 * (b / 4096) then 4096 * (b / 4096) else a).
  rewrite red_ok64 by (unfold i64r; destruct (Z.leb_spec a (4096 * (b / 4096))); lia).
  cbn [bind]. split; [reflexivity|].
  destruct (Z.leb_spec a (4096 * (b / 4096))); (split; [lia|]); intros x Hx; unfold redz; lia.
Qed.

(** ** gcd4096 *)

Lemma land1' w : Z.land w 1 = w mod 2.
Proof. change 1 with (Z.ones 1). rewrite Z.land_ones by lia. reflexivity. Qed.

Lemma gcd4096_ok w : w <> 0 -> Z.abs w < 4611686018427387904 ->
  exists g, gcd4096 w = Ok g /\ 0 < g <= 4096 /\ (g | 4096) /\ (g | w).
Proof.
  intros Hw HB. unfold gcd4096.
  destruct (cwhile_rule (fun '(g, v) => exists i, 0 <= i <= 62 /\ g = 2 ^ i /\ w = g * v)
    (fun '(g, v) => 62 - Z.log2 g) (fun '(g, w) => Z.land w 1 =? 0)
    (fun '(g, w) => do g <- i64 (Z.shiftl g 1); Ok (g, Z.shiftr w 1)))
    with (f := fuel 64) (st := (1, w)) as ([g v] & E & (i & Hi & Hg & HW) & Hc).
  - intros [g v] (i & Hi & Hg & HW) Hc. rewrite land1' in Hc.
    assert (Hi62 : i < 62).
    { destruct (Z.eq_dec i 62) as [->|]; [|lia]. change (2 ^ 62) with 4611686018427387904 in Hg.
      subst g. assert (v <> 0) by lia. lia. }
    assert (HP : 2 ^ i <= 2 ^ 61) by (apply Z.pow_le_mono_r; lia).
    change (2 ^ 61) with 2305843009213693952 in HP. assert (0 < 2 ^ i) by (apply Z.pow_pos_nonneg; lia).
    rewrite Z.shiftl_mul_pow2 by lia. change (2 ^ 1) with 2. rewrite i64_ok by lia. cbn [bind].
    eexists. split; [reflexivity|]. split.
    + exists (i + 1). split; [lia|]. rewrite Z.pow_add_r by lia. change (2 ^ 1) with 2.
      split; [lia|]. rewrite Z.shiftr_div_pow2 by lia. change (2 ^ 1) with 2.
      rewrite HW. replace v with (2 * (v / 2)) at 1 by lia. ring.
    + rewrite Hg. replace (2 ^ i * 2) with (2 ^ (i + 1)) by (rewrite Z.pow_add_r by lia; reflexivity).
      rewrite !Z.log2_pow2 by lia. lia.
  - exists 0. split; [lia|]. split; [reflexivity|lia].
  - change (Z.log2 1) with 0. unfold fuel. lia.
  - rewrite E. cbn [bind]. eexists. split; [reflexivity|].
    assert (HP : 0 < 2 ^ i) by (apply Z.pow_pos_nonneg; lia).
    destruct (Z.ltb_spec g 4096) as [Hlt|Hge].
    + split; [lia|]. assert (i < 12).
      { apply (Z.pow_lt_mono_r_iff 2); [lia|lia|]. change (2 ^ 12) with 4096. lia. }
      split; [|exists v; lia]. exists (2 ^ (12 - i)). rewrite Hg, <- Z.pow_add_r by lia.
      replace (12 - i + i) with 12 by lia. reflexivity.
    + split; [lia|]. split; [exists 1; reflexivity|].
      assert (12 <= i).
      { destruct (Z.leb_spec 12 i); [lia|]. assert (2 ^ i < 2 ^ 12) by (apply Z.pow_lt_mono_r; lia).
        change (2 ^ 12) with 4096 in *. lia. }
      exists (2 ^ (i - 12) * v). rewrite HW, Hg. replace i with (i - 12 + 12) at 1 by lia.
      rewrite Z.pow_add_r by lia. change (2 ^ 12) with 4096. ring.
Qed.

(** ** lmax and lmin *)

Lemma quot_div_pos a b : 0 <= a -> 0 < b -> Z.quot a b = a / b.
Proof. intros. apply Z.quot_div_nonneg; lia. Qed.

Lemma lmax_ok w x : 0 < w <= 2305843009213693952 -> -4611686018427387904 <= w * x <= 4611686018427387904 ->
  -4611686018427387904 <= x <= 4611686018427387904 ->
  exists y, lmax w x = Ok y /\ x <= y /\ (w * y) / 4096 = (w * x) / 4096
    /\ w * y <= w * x + 4095 /\ (w * x) / 4096 < (w * (y + 1)) / 4096 /\ y <= x + 4095.
Proof.
  intros Hw Hwx Hx. unfold lmax, mul64, sub64, add64, div64. rewrite i64_ok by lia. cbn [bind].
  rewrite land4095. set (r := (w * x) mod 4096). assert (Hr : 0 <= r < 4096) by (apply Z.mod_pos_bound; lia).
  rewrite i64_ok by lia. cbn [bind]. replace (w =? 0) with false by lia.
  replace (4095 - r =? -9223372036854775808) with false by lia. cbn [andb bind].
  rewrite quot_div_pos by lia. set (k := (4095 - r) / w).
  assert (Hk : 0 <= k) by (apply Z.div_pos; lia).
  assert (Hk1 : w * k <= 4095 - r) by (apply Z.mul_div_le; lia).
  assert (Hk2 : 4095 - r < w * (k + 1)) by (apply Z.mul_succ_div_gt; lia).
  assert (Hk3 : k <= 4095) by nia.
  rewrite i64_ok by lia. cbn [bind].
  assert (Ey : w * (x + k) = w * x + w * k) by ring.
  assert (Ey1 : w * (x + k + 1) = w * x + w * (k + 1)) by ring.
  assert (Hk4 : w * (k + 1) <= 4095 + w) by (rewrite Z.mul_add_distr_l; lia).
  set (p := w * k) in *. set (q := w * (k + 1)) in *. set (v := w * x) in *.
  assert (E1 : (v + p) / 4096 = v / 4096) by (clear - Hr Hk1 Hk Hw; unfold r, p in *; nia || (assert (0 <= p) by (unfold p; nia); lia)).
  assert (E2 : v / 4096 < (v + q) / 4096) by (clear - Hr Hk2; unfold r in *; lia).
  assert (Hp0 : 0 <= p) by (unfold p; nia).
  rewrite Ey. rewrite i64_ok by lia. cbn [bind]. rewrite !shiftr12, E1, Z.eqb_refl. cbn [cassert bind].
  rewrite i64_ok by lia. cbn [bind]. rewrite Ey1. rewrite i64_ok by lia. cbn [bind].
  rewrite shiftr12. replace (v / 4096 <? (v + q) / 4096) with true by (clear - E2; lia). cbn [cassert bind].
  exists (x + k). split; [reflexivity|]. rewrite Ey, Ey1. clear - Hk Hk3 Hk1 Hr E1 E2. lia.
Qed.

Lemma lmin_ok w x : 0 < w <= 2305843009213693952 -> -4611686018427387904 <= w * x <= 4611686018427387904 ->
  -4611686018427387904 <= x <= 4611686018427387904 ->
  exists y, lmin w x = Ok y /\ y <= x /\ (w * y) / 4096 = (w * x) / 4096
    /\ w * x - 4095 <= w * y /\ (w * (y - 1)) / 4096 < (w * x) / 4096 /\ x - 4095 <= y.
Proof.
  intros Hw Hwx Hx. unfold lmin, mul64, sub64, add64, div64. rewrite i64_ok by lia. cbn [bind].
  rewrite land4095. set (r := (w * x) mod 4096). assert (Hr : 0 <= r < 4096) by (apply Z.mod_pos_bound; lia).
  replace (w =? 0) with false by lia.
  replace (r =? -9223372036854775808) with false by lia. cbn [andb bind].
  rewrite quot_div_pos by lia. set (k := r / w).
  assert (Hk : 0 <= k) by (apply Z.div_pos; lia).
  assert (Hk1 : w * k <= r) by (apply Z.mul_div_le; lia).
  assert (Hk2 : r < w * (k + 1)) by (apply Z.mul_succ_div_gt; lia).
  assert (Hk3 : k <= 4095) by nia.
  rewrite i64_ok by lia. cbn [bind].
  assert (Ey : w * (x - k) = w * x - w * k) by ring.
  assert (Ey1 : w * (x - k - 1) = w * x - w * (k + 1)) by ring.
  assert (Hk4 : w * (k + 1) <= 4095 + w) by (rewrite Z.mul_add_distr_l; lia).
  set (p := w * k) in *. set (q := w * (k + 1)) in *. set (v := w * x) in *.
  assert (Hp0 : 0 <= p) by (unfold p; nia).
  assert (E1 : (v - p) / 4096 = v / 4096) by (clear - Hr Hk1 Hp0; unfold r in *; lia).
  assert (E2 : (v - q) / 4096 < v / 4096) by (clear - Hr Hk2; unfold r in *; lia).
  rewrite Ey. rewrite i64_ok by lia. cbn [bind]. rewrite !shiftr12, E1, Z.eqb_refl. cbn [cassert bind].
  rewrite i64_ok by lia. cbn [bind]. rewrite Ey1. rewrite i64_ok by lia. cbn [bind].
  rewrite shiftr12. replace ((v - q) / 4096 <? v / 4096) with true by (clear - E2; lia). cbn [cassert bind].
  exists (x - k). split; [reflexivity|]. rewrite Ey, Ey1. clear - Hk Hk3 Hk1 Hr E1 E2. lia.
Qed.

(** ** The loop of max_red_mul *)

Definition sbnd (v : Z) : Prop := -4611686018427387904 <= v <= 4611686018427387904.

Lemma sbnd_mul pw a b x : 0 < pw -> sbnd (pw * a) -> sbnd (pw * b) -> a <= x <= b -> sbnd (pw * x).
Proof.
  unfold sbnd. intros Hp Ha Hb Hx.
  assert (pw * a <= pw * x) by (apply Z.mul_le_mono_nonneg_l; lia).
  assert (pw * x <= pw * b) by (apply Z.mul_le_mono_nonneg_l; lia). lia.
Qed.

Lemma sbnd_one pw x : 0 < pw -> sbnd (pw * x) -> sbnd x.
Proof. unfold sbnd. nia. Qed.

Lemma rem_gcd g pw x : (g | 4096) -> (g | pw) -> 0 < g -> (pw * x) mod 4096 <= 4096 - g.
Proof.
  intros (u & Hu) (v & Hv) Hg.
  assert (H : exists k, (pw * x) mod 4096 = g * k).
  { exists (v * x - u * ((pw * x) / 4096)). rewrite (Z.mod_eq (pw * x) 4096) by discriminate.
    rewrite Z.mul_sub_distr_l. rewrite Hv at 1. rewrite Hu at 1. ring. }
  destruct H as (k & Hk). pose proof (Z.mod_pos_bound (pw * x) 4096). rewrite Hk in *.
  assert (g * k < g * u) by lia. assert (k < u) by nia. nia.
Qed.

Lemma same_div_le u v : u <= v -> u / 4096 = v / 4096 -> redz u <= redz v.
Proof. unfold redz. lia. Qed.

Lemma max_loop_ok a b pw gg : a <= b -> 0 < pw <= 2305843009213693952 ->
  sbnd (pw * a) -> sbnd (pw * b) -> 0 < gg <= 4096 -> (gg | 4096) -> (gg | pw) ->
  exists s x xm,
    cwhile (fuel (b - a + 1)) (fun '(stop, _, _, _) => negb stop)
      (max_loop b pw (3 * (4096 - gg)) (4096 - gg)) (false, a, b, redz (pw * b))
      = Ok (s, x, xm, redz (pw * xm)) /\ a <= xm <= b
    /\ forall z, a <= z <= b -> redz (pw * z) <= redz (pw * xm).
Proof.
  intros Hab Hpw Ha Hb Hgg Hg1 Hg2.
  assert (HS : forall x, a <= x <= b -> sbnd (pw * x)) by (intros; apply (sbnd_mul pw a b); try assumption; lia).
  assert (Hrem : forall x, (pw * x) mod 4096 <= 4096 - gg) by (intros; apply rem_gcd; auto; lia).
  destruct (cwhile_rule (fun '(s, x, xm, rm) => rm = redz (pw * xm) /\ a <= xm <= b /\ redz (pw * b) <= rm /\
      if s : bool then forall z, a <= z <= b -> redz (pw * z) <= rm
      else a <= x <= b /\ forall z, a <= z < x -> redz (pw * z) <= rm)
    (fun '(s, x, xm, rm) => if s : bool then 0 else b - x + 1)
    (fun '(stop, _, _, _) => negb stop) (max_loop b pw (3 * (4096 - gg)) (4096 - gg)))
    with (f := fuel (b - a + 1)) (st := (false, a, b, redz (pw * b)))
    as ([[[s x] xm] rm] & E & (Hrm & Hxm & HB & HI) & Hc).
  - intros [[[s x] xm] rm] (Hrm & Hxm & HB & HI) Hc. destruct s; [discriminate|]. destruct HI as (Hx & HI).
    pose proof (HS x Hx) as Hwx. pose proof (sbnd_one pw x ltac:(lia) Hwx) as Hx'. 
    pose proof (HS xm Hxm) as Hwm.
    destruct (lmax_ok pw x Hpw Hwx Hx') as (y & Ey & Hxy & Hy1 & Hy2 & Hy3 & Hy4).
    assert (Hblock : forall z, x <= z <= y -> redz (pw * z) <= redz (pw * y)).
    { intros z Hz. assert (pw * x <= pw * z) by (apply Z.mul_le_mono_nonneg_l; lia).
      assert (pw * z <= pw * y) by (apply Z.mul_le_mono_nonneg_l; lia).
      apply same_div_le; [lia|]. clear - Hy1 H H0. lia. }
    assert (Hyx : pw * x <= pw * y) by (apply Z.mul_le_mono_nonneg_l; lia).
    assert (Hyb : b <= y -> redz (pw * x) <= redz (pw * b) /\ forall z, x <= z <= b -> redz (pw * z) <= redz (pw * b)).
    { intros Hby. assert (G : forall z, x <= z <= b -> redz (pw * z) <= redz (pw * b)).
      { intros z Hz. assert (pw * x <= pw * z) by (apply Z.mul_le_mono_nonneg_l; lia).
        assert (pw * z <= pw * b) by (apply Z.mul_le_mono_nonneg_l; lia).
        assert (pw * b <= pw * y) by (apply Z.mul_le_mono_nonneg_l; lia).
        apply same_div_le; [lia|]. clear - Hy1 H H0 H1. lia. }
      split; [apply G; lia|exact G]. }
    unfold max_loop. rewrite Ey. cbn [bind]. unfold mul64, neg64, sub64, add64, divd, remd.
    unfold sbnd in *.
    rewrite i64_ok by lia. cbn [bind]. rewrite shiftr12. set (v := pw * y) in *.
    rewrite (i64_ok (0 - v / 4096)) by (clear - Hwx Hy2 Hyx; lia). cbn [bind].
    rewrite (i64_ok (0 - v / 4096 + _)) by (clear - Hwx Hy2 Hyx Hgg; lia). cbn [bind].
    assert (Hupper : forall z, y <= z -> redz (pw * z) <= 0 - v / 4096 + 3 * (4096 - gg)).
    { intros z Hz. assert (v <= pw * z) by (apply Z.mul_le_mono_nonneg_l; lia).
      specialize (Hrem z). unfold redz. clear - H Hrem. lia. }
    destruct (Z.leb_spec b y) as [Hby|Hby]; cbn [orb].
    { eexists. split; [reflexivity|]. split; [|lia]. repeat (split; [assumption|]).
      intros z Hz. destruct (Z.ltb_spec z x); [apply HI; lia|]. etransitivity; [apply (proj2 (Hyb Hby)); lia|exact HB]. }
    destruct (Z.leb_spec (0 - v / 4096 + 3 * (4096 - gg)) rm) as [Hle|Hgt].
    { eexists. split; [reflexivity|]. split; [|lia]. repeat (split; [assumption|]).
      intros z Hz. destruct (Z.ltb_spec z x); [apply HI; lia|].
      destruct (Z.leb_spec y z). { etransitivity; [apply Hupper; assumption|exact Hle]. }
      etransitivity; [apply Hblock; lia|]. etransitivity; [apply (Hupper y); lia|exact Hle]. }
    rewrite red_ok64 by (unfold i64r; clear - Hwx Hy2 Hyx; lia). cbn [bind].
    destruct (Z.ltb_spec rm (redz v)) as [Hlt|Hge].
    + rewrite land4095. destruct (Z.eqb_spec (v mod 4096) (4096 - gg)) as [Heq|Hne].
      * eexists. split; [reflexivity|]. split; [|lia]. split; [reflexivity|]. split; [lia|]. split; [lia|].
        intros z Hz. destruct (Z.leb_spec y z).
        { etransitivity; [apply Hupper; assumption|]. unfold redz. clear - Heq. lia. }
        destruct (Z.ltb_spec z x); [|apply Hblock; lia]. assert (redz (pw * z) <= rm) by (apply HI; lia). lia.
      * rewrite i64_ok by (clear - Hy4 Hxy Hx'; lia). cbn [bind]. eexists. split; [reflexivity|]. split; [|lia].
        split; [reflexivity|]. split; [lia|]. split; [lia|]. split; [lia|].
        intros z Hz. destruct (Z.ltb_spec z x); [|apply Hblock; lia]. assert (redz (pw * z) <= rm) by (apply HI; lia). lia.
    + rewrite i64_ok by (clear - Hy4 Hxy Hx'; lia). cbn [bind]. eexists. split; [reflexivity|]. split; [|lia].
      split; [assumption|]. split; [lia|]. split; [lia|]. split; [lia|].
      intros z Hz. destruct (Z.ltb_spec z x); [apply HI; lia|]. etransitivity; [apply Hblock; lia|exact Hge].
  - split; [reflexivity|]. split; [lia|]. split; [lia|]. split; [lia|]. intros; lia.
  - unfold fuel. lia.
  - exists s, x, xm. subst rm. split; [exact E|]. split; [exact Hxm|]. destruct s; [exact HI|discriminate].
Qed.

Lemma max_red_mul_ok a b w : a <= b -> w <> 0 -> Z.abs w <= 2305843009213693952 ->
  sbnd (w * a) -> sbnd (w * b) ->
  exists x, max_red_mul a b w = Ok (redz (w * x), x) /\ a <= x <= b
    /\ forall z, a <= z <= b -> redz (w * z) <= redz (w * x).
Proof.
  intros Hab Hw Habs Ha Hb. unfold max_red_mul. replace (a <=? b) with true by lia. cbn [cassert bind].
  destruct (gcd4096_ok w Hw ltac:(lia)) as (g & Eg & Hg & Hg1 & Hg2).
  assert (sbnd a /\ sbnd b) as (Hsa & Hsb) by (unfold sbnd in *; nia).
  destruct (Z.ltb_spec w 0) as [Hneg|Hpos].
  - unfold neg64, sub64, mul64. unfold sbnd in Hsa, Hsb. rewrite !i64_ok by lia. cbn [bind].
    replace (0 - w) with (- w) by ring. replace (0 - b) with (- b) by ring. replace (0 - a) with (- a) by ring.
    replace (- w * - a) with (w * a) by ring.
    rewrite i64_ok by (unfold sbnd in *; lia). cbn [bind]. rewrite red_ok64 by (unfold sbnd, i64r in *; lia).
    cbn [bind]. rewrite Eg. cbn [bind]. rewrite i64_ok by lia. cbn [bind]. rewrite i64_ok by lia. cbn [bind].
    destruct (max_loop_ok (- b) (- a) (- w) g) as (s & x & xm & E & Hxm & HM); try assumption; try lia.
    { replace (- w * - b) with (w * b) by ring. assumption. }
    { replace (- w * - a) with (w * a) by ring. assumption. }
    { apply Z.divide_opp_r. assumption. }
    replace (- w * - a) with (w * a) in E by ring. rewrite E. cbn [bind].
    rewrite i64_ok by lia. cbn [bind]. exists (- xm). replace (0 - xm) with (- xm) by ring.
    replace (- w * xm) with (w * - xm) in * by ring. split; [reflexivity|]. split; [lia|].
    intros z Hz. specialize (HM (- z) ltac:(lia)). replace (- w * - z) with (w * z) in HM by ring. exact HM.
  - cbn [bind]. unfold mul64, sub64. rewrite i64_ok by (unfold sbnd in *; lia). cbn [bind].
    rewrite red_ok64 by (unfold sbnd, i64r in *; lia).
    cbn [bind]. rewrite Eg. cbn [bind]. rewrite i64_ok by lia. cbn [bind]. rewrite i64_ok by lia. cbn [bind].
    destruct (max_loop_ok a b w g) as (s & x & xm & E & Hxm & HM); try assumption; try lia.
    rewrite E. cbn [bind]. exists xm. split; [reflexivity|]. split; [lia|exact HM].
Qed.

(** ** The loop of min_red_mul *)

Lemma min_loop_ok a b pw : a <= b -> 0 < pw <= 2305843009213693952 ->
  sbnd (pw * a) -> sbnd (pw * b) ->
  exists s x xm,
    cwhile (fuel (b - a + 1)) (fun '(stop, _, _, _) => negb stop)
      (min_loop a pw) (false, b, a, redz (pw * a))
      = Ok (s, x, xm, redz (pw * xm)) /\ a <= xm <= b
    /\ forall z, a <= z <= b -> redz (pw * xm) <= redz (pw * z).
Proof.
  intros Hab Hpw Ha Hb.
  assert (HS : forall x, a <= x <= b -> sbnd (pw * x)) by (intros; apply (sbnd_mul pw a b); try assumption; lia).
  destruct (cwhile_rule (fun '(s, x, xm, rm) => rm = redz (pw * xm) /\ a <= xm <= b /\ rm <= redz (pw * a) /\
      if s : bool then forall z, a <= z <= b -> rm <= redz (pw * z)
      else a <= x <= b /\ forall z, x < z <= b -> rm <= redz (pw * z))
    (fun '(s, x, xm, rm) => if s : bool then 0 else x - a + 1)
    (fun '(stop, _, _, _) => negb stop) (min_loop a pw))
    with (f := fuel (b - a + 1)) (st := (false, b, a, redz (pw * a)))
    as ([[[s x] xm] rm] & E & (Hrm & Hxm & HB & HI) & Hc).
  - intros [[[s x] xm] rm] (Hrm & Hxm & HB & HI) Hc. destruct s; [discriminate|]. destruct HI as (Hx & HI).
    pose proof (HS x Hx) as Hwx. pose proof (sbnd_one pw x ltac:(lia) Hwx) as Hx'. 
    pose proof (HS xm Hxm) as Hwm.
    destruct (lmin_ok pw x Hpw Hwx Hx') as (y & Ey & Hxy & Hy1 & Hy2 & Hy3 & Hy4).
    assert (Hblock : forall z, y <= z <= x -> redz (pw * y) <= redz (pw * z)).
    { intros z Hz. assert (pw * z <= pw * x) by (apply Z.mul_le_mono_nonneg_l; lia).
      assert (pw * y <= pw * z) by (apply Z.mul_le_mono_nonneg_l; lia).
      apply same_div_le; [lia|]. clear - Hy1 H H0. lia. }
    assert (Hyx : pw * y <= pw * x) by (apply Z.mul_le_mono_nonneg_l; lia).
    assert (Hyb : y <= a -> forall z, a <= z <= x -> redz (pw * a) <= redz (pw * z)).
    { intros Hby z Hz. assert (pw * z <= pw * x) by (apply Z.mul_le_mono_nonneg_l; lia).
        assert (pw * a <= pw * z) by (apply Z.mul_le_mono_nonneg_l; lia).
        assert (pw * y <= pw * a) by (apply Z.mul_le_mono_nonneg_l; lia).
        apply same_div_le; [lia|]. clear - Hy1 H H0 H1. lia. }
    unfold min_loop. rewrite Ey. cbn [bind]. unfold mul64, neg64, sub64, add64, divd, remd.
    unfold sbnd in *.
    rewrite i64_ok by lia. cbn [bind]. rewrite shiftr12. set (v := pw * y) in *.
    rewrite (i64_ok (0 - v / 4096)) by (clear - Hwx Hy2 Hyx; lia). cbn [bind].
    assert (Hlower : forall z, z <= y -> 0 - v / 4096 <= redz (pw * z)).
    { intros z Hz. assert (pw * z <= v) by (apply Z.mul_le_mono_nonneg_l; lia).
      unfold redz. clear - H. lia. }
    destruct (Z.leb_spec y a) as [Hby|Hby]; cbn [orb].
    { eexists. split; [reflexivity|]. split; [|lia]. repeat (split; [assumption|]).
      intros z Hz. destruct (Z.ltb_spec x z); [apply HI; lia|]. etransitivity; [exact HB|apply (Hyb Hby); lia]. }
    destruct (Z.leb_spec rm (0 - v / 4096)) as [Hle|Hgt].
    { eexists. split; [reflexivity|]. split; [|lia]. repeat (split; [assumption|]).
      intros z Hz. destruct (Z.ltb_spec x z); [apply HI; lia|].
      destruct (Z.leb_spec z y). { etransitivity; [exact Hle|apply Hlower; assumption]. }
      etransitivity; [|apply Hblock; lia]. etransitivity; [exact Hle|apply (Hlower y); lia]. }
    rewrite red_ok64 by (unfold i64r; clear - Hwx Hy2 Hyx; lia). cbn [bind].
    destruct (Z.ltb_spec (redz v) rm) as [Hlt|Hge].
    + rewrite land4095. destruct (Z.eqb_spec (v mod 4096) 0) as [Heq|Hne].
      * eexists. split; [reflexivity|]. split; [|lia]. split; [reflexivity|]. split; [lia|]. split; [lia|].
        intros z Hz. destruct (Z.leb_spec z y).
        { etransitivity; [|apply Hlower; assumption]. unfold redz. clear - Heq. lia. }
        destruct (Z.ltb_spec x z); [|apply Hblock; lia]. assert (rm <= redz (pw * z)) by (apply HI; lia). lia.
      * rewrite i64_ok by (clear - Hy4 Hxy Hx'; lia). cbn [bind]. eexists. split; [reflexivity|]. split; [|lia].
        split; [reflexivity|]. split; [lia|]. split; [lia|]. split; [lia|].
        intros z Hz. destruct (Z.ltb_spec x z); [|apply Hblock; lia]. assert (rm <= redz (pw * z)) by (apply HI; lia). lia.
    + rewrite i64_ok by (clear - Hy4 Hxy Hx'; lia). cbn [bind]. eexists. split; [reflexivity|]. split; [|lia].
      split; [assumption|]. split; [lia|]. split; [lia|]. split; [lia|].
      intros z Hz. destruct (Z.ltb_spec x z); [apply HI; lia|]. etransitivity; [exact Hge|apply Hblock; lia].
  - split; [reflexivity|]. split; [lia|]. split; [lia|]. split; [lia|]. intros; lia.
  - unfold fuel. lia.
  - exists s, x, xm. subst rm. split; [exact E|]. split; [exact Hxm|]. destruct s; [exact HI|discriminate].
Qed.

Lemma min_red_mul_ok a b w : a <= b -> w <> 0 -> Z.abs w <= 2305843009213693952 ->
  sbnd (w * a) -> sbnd (w * b) ->
  exists x, min_red_mul a b w = Ok (redz (w * x), x) /\ a <= x <= b
    /\ forall z, a <= z <= b -> redz (w * x) <= redz (w * z).
Proof.
  intros Hab Hw Habs Ha Hb. unfold min_red_mul. replace (a <=? b) with true by lia. cbn [cassert bind].
  assert (sbnd a /\ sbnd b) as (Hsa & Hsb) by (unfold sbnd in *; nia).
  destruct (Z.ltb_spec w 0) as [Hneg|Hpos].
  - unfold neg64, sub64, mul64. unfold sbnd in Hsa, Hsb. rewrite !i64_ok by lia. cbn [bind].
    replace (0 - w) with (- w) by ring. replace (0 - b) with (- b) by ring. replace (0 - a) with (- a) by ring.
    replace (- w * - b) with (w * b) by ring.
    rewrite i64_ok by (unfold sbnd in *; lia). cbn [bind]. rewrite red_ok64 by (unfold sbnd, i64r in *; lia).
    cbn [bind].
    destruct (min_loop_ok (- b) (- a) (- w)) as (s & x & xm & E & Hxm & HM); try assumption; try lia.
    { replace (- w * - b) with (w * b) by ring. assumption. }
    { replace (- w * - a) with (w * a) by ring. assumption. }
    replace (- w * - b) with (w * b) in E by ring. rewrite E. cbn [bind].
    rewrite i64_ok by lia. cbn [bind]. exists (- xm). replace (0 - xm) with (- xm) by ring.
    replace (- w * xm) with (w * - xm) in * by ring. split; [reflexivity|]. split; [lia|].
    intros z Hz. specialize (HM (- z) ltac:(lia)). replace (- w * - z) with (w * z) in HM by ring. exact HM.
  - cbn [bind]. unfold mul64, sub64. rewrite i64_ok by (unfold sbnd in *; lia). cbn [bind].
    rewrite red_ok64 by (unfold sbnd, i64r in *; lia). cbn [bind].
    destruct (min_loop_ok a b w) as (s & x & xm & E & Hxm & HM); try assumption; try lia.
    rewrite E. cbn [bind]. exists xm. split; [reflexivity|]. split; [lia|exact HM].
Qed.
