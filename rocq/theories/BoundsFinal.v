(** Lemmas behind [PropBounds]. *)

From Coq Require Import ZArith List Bool Lia.
From Verif Require Import CSem Spec Loops ModQ ModelBounds RedElem BoundsElem BoundsRound BoundsNtt.
From Verif Require ModelRed.
Import ListNotations.
Open Scope Z_scope.

Lemma verifier_red1_ok x : verifier_red1 x = ln_red x.
Proof. unfold verifier_red1, ln_red. rewrite land4095, shiftr12. reflexivity. Qed.

Lemma verifier_red_exact_L :
  forall a b, a <= b -> exists lo hi, verifier_red (Some a) (Some b) = Some (lo, hi)
    /\ (forall x, a <= x <= b -> lo <= ln_red x <= hi)
    /\ (exists x, a <= x <= b /\ ln_red x = lo) /\ (exists x, a <= x <= b /\ ln_red x = hi).
Proof.
  intros a b Hab. unfold verifier_red. rewrite !verifier_red1_ok, land_not4095, lor4095.
  set (d1 := if a <=? 4096 * (b / 4096) then 4096 * (b / 4096) else a).
  set (d2 := if 4096 * (a / 4096) + 4095 <=? b then 4096 * (a / 4096) + 4095 else b).
  exists (ln_red d1), (ln_red d2). split; [reflexivity|].
  assert (H1 : a <= d1 <= b) by (unfold d1; destruct (Z.leb_spec a (4096 * (b / 4096))); lia).
  assert (H2 : a <= d2 <= b) by (unfold d2; destruct (Z.leb_spec (4096 * (a / 4096) + 4095) b); lia).
  split; [|split; [exists d1; auto|exists d2; auto]].
  intros x Hx. unfold ln_red, d1, d2.
  destruct (Z.leb_spec a (4096 * (b / 4096))), (Z.leb_spec (4096 * (a / 4096) + 4095) b); lia.
Qed.

Lemma verifier_red_unbounded_L :
  forall a b, verifier_red None b = None /\ verifier_red a None = None.
Proof.
  intros a b. split; [reflexivity|]. destruct a; reflexivity.
Qed.

Lemma max_red_exact_L :
  forall a b, a <= b -> in_i64 a = true -> in_i64 b = true ->
  exists m, max_red a b = Ok (ln_red m, m) /\ a <= m <= b
    /\ forall x, a <= x <= b -> ln_red x <= ln_red m.
Proof.
  intros a b Hab Ha Hb. unfold in_i64 in *. apply max_red_ok; unfold i64r; lia.
Qed.

Lemma min_red_exact_L :
  forall a b, a <= b -> in_i64 a = true -> in_i64 b = true ->
  exists m, min_red a b = Ok (ln_red m, m) /\ a <= m <= b
    /\ forall x, a <= x <= b -> ln_red m <= ln_red x.
Proof.
  intros a b Hab Ha Hb. unfold in_i64 in *. apply min_red_ok; unfold i64r; lia.
Qed.

Lemma max_red_mul_exact_L :
  forall a b w, a <= b -> w <> 0 -> Z.abs w <= 2 ^ 61 -> Z.abs (w * a) <= 2 ^ 62 -> Z.abs (w * b) <= 2 ^ 62 ->
  exists m, max_red_mul a b w = Ok (ln_red (w * m), m) /\ a <= m <= b
    /\ forall x, a <= x <= b -> ln_red (w * x) <= ln_red (w * m).
Proof.
  change (2 ^ 61) with 2305843009213693952. change (2 ^ 62) with 4611686018427387904.
  intros a b w Hab Hw Hw' Ha Hb. apply max_red_mul_ok; unfold sbnd; lia.
Qed.

Lemma min_red_mul_exact_L :
  forall a b w, a <= b -> w <> 0 -> Z.abs w <= 2 ^ 61 -> Z.abs (w * a) <= 2 ^ 62 -> Z.abs (w * b) <= 2 ^ 62 ->
  exists m, min_red_mul a b w = Ok (ln_red (w * m), m) /\ a <= m <= b
    /\ forall x, a <= x <= b -> ln_red (w * m) <= ln_red (w * x).
Proof.
  change (2 ^ 61) with 2305843009213693952. change (2 ^ 62) with 4611686018427387904.
  intros a b w Hab Hw Hw' Ha Hb. apply min_red_mul_ok; unfold sbnd; lia.
Qed.

Lemma red_mul_zero_constant_refuted_L :
  forall a b, a <= b -> in_i64 a = true -> in_i64 b = true ->
  max_red_mul a b 0 = Err SignedOverflow /\ min_red_mul a b 0 = Err DivByZero.
Proof.
  intros a b Hab Ha Hb. unfold max_red_mul, min_red_mul. replace (a <=? b) with true by lia.
  cbn [cassert bind Z.ltb Z.compare]. unfold mul64. rewrite !Z.mul_0_l.
  change (i64 0) with (Ok 0). cbn [bind]. change (red 0) with (Ok 0). cbn [bind].
  split; [vm_compute; reflexivity|].
  unfold fuel. cbn [cwhile negb]. unfold min_loop at 1. unfold lmin at 1. unfold mul64. rewrite Z.mul_0_l.
  change (i64 0) with (Ok 0). cbn [bind]. reflexivity.
Qed.

Lemma ct_bound_exact_L :
  forall b low high, 0 <= b -> low <= high -> low <> 0 -> high <> 0 ->
  b <= 2 ^ 61 -> Z.abs low <= 2 ^ 61 -> Z.abs high <= 2 ^ 61 ->
  Z.abs low * b <= 2 ^ 61 -> Z.abs high * b <= 2 ^ 61 ->
  exists c, ct_bound b low high = Ok c
    /\ (forall x y w, - b <= x <= b -> - b <= y <= b -> low <= w <= high ->
          Z.abs (x + ln_red (w * y)) <= c /\ Z.abs (x - ln_red (w * y)) <= c)
    /\ (exists x y w, - b <= x <= b /\ - b <= y <= b /\ low <= w <= high
          /\ (Z.abs (x + ln_red (w * y)) = c \/ Z.abs (x - ln_red (w * y)) = c)).
Proof.
  change (2 ^ 61) with 2305843009213693952. intros. apply ct_bound_ok; try assumption. unfold cbnd. lia.
Qed.

Lemma gs_bound_exact_L :
  forall b low high, 0 <= b -> low <= high -> low <> 0 -> high <> 0 ->
  b <= 2 ^ 60 -> Z.abs low <= 2 ^ 61 -> Z.abs high <= 2 ^ 61 ->
  Z.abs low * b <= 2 ^ 60 -> Z.abs high * b <= 2 ^ 60 ->
  exists c, gs_bound b low high = Ok c
    /\ (forall x y w, - b <= x <= b -> - b <= y <= b -> low <= w <= high ->
          Z.abs (x + y) <= c /\ Z.abs (ln_red (w * (x - y))) <= c)
    /\ (exists x y w, - b <= x <= b /\ - b <= y <= b /\ low <= w <= high
          /\ (Z.abs (x + y) = c \/ Z.abs (ln_red (w * (x - y))) = c)).
Proof.
  change (2 ^ 61) with 2305843009213693952. change (2 ^ 60) with 1152921504606846976.
  intros. apply gs_bound_ok; try assumption. unfold cbnd. lia.
Qed.

Lemma ct_bound_fixed_exact_L :
  forall b w, 0 <= b -> w <> 0 -> b <= 2 ^ 61 -> Z.abs w <= 2 ^ 61 -> Z.abs w * b <= 2 ^ 61 ->
  exists c, ct_bound_fixed b w = Ok c
    /\ (forall x y, - b <= x <= b -> - b <= y <= b ->
          Z.abs (x + ln_red (w * y)) <= c /\ Z.abs (x - ln_red (w * y)) <= c)
    /\ (exists x y, - b <= x <= b /\ - b <= y <= b
          /\ (Z.abs (x + ln_red (w * y)) = c \/ Z.abs (x - ln_red (w * y)) = c)).
Proof.
  change (2 ^ 61) with 2305843009213693952. intros b w H1 H2 H3 H4 H5.
  destruct (ct_bound_fixed_ok b w) as (c & E & S & T & _); [unfold fixed_range; lia|].
  exists c. split; [exact E|]. split; [intros x y Hx Hy; exact (S x y w Hx Hy eq_refl)|].
  destruct T as (x & y & v & Hx & Hy & <- & HT). exists x, y. auto.
Qed.

Lemma gs_bound_fixed_exact_L :
  forall b w, 0 <= b -> w <> 0 -> b <= 2 ^ 60 -> Z.abs w <= 2 ^ 61 -> Z.abs w * b <= 2 ^ 60 ->
  exists c, gs_bound_fixed b w = Ok c
    /\ (forall x y, - b <= x <= b -> - b <= y <= b ->
          Z.abs (x + y) <= c /\ Z.abs (ln_red (w * (x - y))) <= c)
    /\ (exists x y, - b <= x <= b /\ - b <= y <= b
          /\ (Z.abs (x + y) = c \/ Z.abs (ln_red (w * (x - y))) = c)).
Proof.
  change (2 ^ 61) with 2305843009213693952. change (2 ^ 60) with 1152921504606846976.
  intros b w H1 H2 H3 H4 H5.
  destruct (gs_bound_fixed_ok b w) as (c & E & S & T & _); [unfold fixed_range; lia|].
  exists c. split; [exact E|]. split; [intros x y Hx Hy; exact (S x y w Hx Hy eq_refl)|].
  destruct T as (x & y & v & Hx & Hy & <- & HT). exists x, y. auto.
Qed.

Lemma ntt_ct_bounds_sound_L :
  forall k b0 p bound, 0 <= k <= 12 -> 0 <= b0 <= 2 ^ 29 ->
  zlen p = 2 ^ k -> (forall i, 1 <= i < 2 ^ k -> at_ p i <> 0 /\ -6144 <= at_ p i <= 6144) ->
  k < zlen bound ->
  exists B bd, ntt_ct_bounds b0 (2 ^ k) p bound = Ok (B, bd)
    /\ zlen bd = zlen bound /\ at_ bd 0 = b0 /\ at_ bd k = B
    /\ (forall l j x y, 0 <= l < k -> 0 <= j < 2 ^ l -> Z.abs x <= at_ bd l -> Z.abs y <= at_ bd l ->
          Z.abs (x + ln_red (at_ p (2 ^ l + j) * y)) <= at_ bd (l + 1)
          /\ Z.abs (x - ln_red (at_ p (2 ^ l + j) * y)) <= at_ bd (l + 1))
    /\ (forall l, 0 <= l < k -> exists j x y, 0 <= j < 2 ^ l /\ Z.abs x <= at_ bd l /\ Z.abs y <= at_ bd l
          /\ (Z.abs (x + ln_red (at_ p (2 ^ l + j) * y)) = at_ bd (l + 1)
              \/ Z.abs (x - ln_red (at_ p (2 ^ l + j) * y)) = at_ bd (l + 1)))
    /\ (B <= 2147483647 -> forall a, zlen a = 2 ^ k -> (forall i, 0 <= i < 2 ^ k -> Z.abs (at_ a i) <= b0) ->
          forall run, run = ModelRed.mulntt_red_ct_rev2std \/ run = ModelRed.mulntt_red_ct_std2rev
            \/ ((forall l, 0 <= l < k -> at_ p (2 ^ l) = -4096)
                /\ (run = ModelRed.ntt_red_ct_rev2std \/ run = ModelRed.ntt_red_ct_std2rev)) ->
          exists r, run a (2 ^ k) p = Ok r /\ zlen r = 2 ^ k
            /\ forall i, 0 <= i < 2 ^ k -> Z.abs (at_ r i) <= B).
Proof.
  change (2 ^ 29) with 536870912. intros k b0 p bound Hk Hb0 HL HP HB.
  assert (HT : bnd_table k p) by (split; assumption).
  destruct (ntt_ct_bounds_ok k b0 p bound Hk Hb0 HT HB) as (bd & E & HLb & HS & HE).
  exists (at_ bd k), bd. split; [exact E|]. split; [exact HLb|]. split; [apply HS|]. split; [reflexivity|]. split.
  - intros l j x y Hl Hj Hx Hy. destruct HS as (_ & _ & HG). destruct (HG l Hl) as [_ HG'].
    destruct (HG' j Hj) as [S _]. apply (S x y _ ltac:(lia) ltac:(lia) eq_refl).
  - split.
    { intros l Hl. destruct (HE l Hl) as (j & Hj & (x & y & w & Hx & Hy & <- & HA) & _).
      exists j, x, y. split; [exact Hj|]. split; [lia|]. split; [lia|exact HA]. }
    intros Hmax a HLa Ha run [->|[->|[HU [->| ->]]]].
    + exact (bound_mul_ct_rev2std k b0 p a bd Hk (bnd_range k p HT) HLa Ha HS Hmax).
    + exact (bound_mul_ct_std2rev k b0 p a bd Hk (bnd_range k p HT) HLa Ha HS Hmax).
    + exact (bound_ct_rev2std k b0 p a bd Hk (bnd_range k p HT) HLa Ha HS Hmax (unit_doubling k b0 p bd HS HU)).
    + exact (bound_ct_std2rev k b0 p a bd Hk (bnd_range k p HT) HLa Ha HS Hmax (unit_doubling k b0 p bd HS HU)).
Qed.

Lemma ntt_gs_bounds_sound_L :
  forall k b0 p bound, 0 <= k <= 12 -> 0 <= b0 <= 2 ^ 29 ->
  zlen p = 2 ^ k -> (forall i, 1 <= i < 2 ^ k -> at_ p i <> 0 /\ -6144 <= at_ p i <= 6144) ->
  k < zlen bound ->
  exists B bd, ntt_gs_bounds b0 (2 ^ k) p bound = Ok (B, bd)
    /\ zlen bd = zlen bound /\ at_ bd 0 = b0 /\ at_ bd k = B
    /\ (forall l j x y, 0 <= l < k -> 0 <= j < 2 ^ (k - 1 - l) -> Z.abs x <= at_ bd l -> Z.abs y <= at_ bd l ->
          Z.abs (x + y) <= at_ bd (l + 1)
          /\ Z.abs (ln_red (at_ p (2 ^ (k - 1 - l) + j) * (x - y))) <= at_ bd (l + 1))
    /\ (forall l, 0 <= l < k -> exists j x y, 0 <= j < 2 ^ (k - 1 - l) /\ Z.abs x <= at_ bd l /\ Z.abs y <= at_ bd l
          /\ (Z.abs (x + y) = at_ bd (l + 1)
              \/ Z.abs (ln_red (at_ p (2 ^ (k - 1 - l) + j) * (x - y))) = at_ bd (l + 1)))
    /\ (B < 2 ^ 31 - 12286 -> forall a, zlen a = 2 ^ k -> (forall i, 0 <= i < 2 ^ k -> Z.abs (at_ a i) <= b0) ->
          forall run, run = ModelRed.nttmul_red_gs_rev2std \/ run = ModelRed.nttmul_red_gs_std2rev
            \/ run = ModelRed.ntt_red_gs_rev2std \/ run = ModelRed.ntt_red_gs_std2rev ->
          exists r, run a (2 ^ k) p = Ok r /\ zlen r = 2 ^ k
            /\ forall i, 0 <= i < 2 ^ k -> Z.abs (at_ r i) <= B).
Proof.
  change (2 ^ 29) with 536870912. change (2 ^ 31) with 2147483648. intros k b0 p bound Hk Hb0 HL HP HB.
  assert (HT : bnd_table k p) by (split; assumption).
  destruct (ntt_gs_bounds_ok k b0 p bound Hk Hb0 HT HB) as (bd & E & HLb & HS & HE).
  exists (at_ bd k), bd. split; [exact E|]. split; [exact HLb|]. split; [apply HS|]. split; [reflexivity|]. split.
  - intros l j x y Hl Hj Hx Hy. destruct HS as (_ & _ & HG). destruct (HG l Hl) as [_ HG'].
    destruct (HG' j Hj) as [S _]. apply (S x y _ ltac:(lia) ltac:(lia) eq_refl).
  - split.
    { intros l Hl. destruct (HE l Hl) as (j & Hj & (x & y & w & Hx & Hy & <- & HA) & _).
      exists j, x, y. split; [exact Hj|]. split; [lia|]. split; [lia|exact HA]. }
    intros Hmax a HLa Ha run HR. assert (Hmax' : at_ bd k <= 2147471361) by lia.
    destruct HR as [->|[->|[->| ->]]].
    + exact (bound_mul_gs_rev2std k b0 p a bd Hk (bnd_range k p HT) HLa Ha HS Hmax').
    + exact (bound_mul_gs_std2rev k b0 p a bd Hk (bnd_range k p HT) HLa Ha HS Hmax').
    + exact (bound_gs_rev2std k b0 p a bd Hk (bnd_range k p HT) HLa Ha HS Hmax').
    + exact (bound_gs_std2rev k b0 p a bd Hk (bnd_range k p HT) HLa Ha HS Hmax').
Qed.

Lemma max_red_mul_interval_exact_L :
  forall a b B low high, a <= b -> Z.abs a <= B -> Z.abs b <= B -> low <= high ->
  B <= 2 ^ 62 -> Z.abs low <= 2 ^ 61 -> Z.abs high <= 2 ^ 61 -> Z.abs low * B <= 2 ^ 62 -> Z.abs high * B <= 2 ^ 62 ->
  exists r m wm, max_red_mul_interval a b low high = Ok (r, m, wm)
    /\ 0 <= r /\ r = ln_red (wm * m) /\ (r = 0 \/ (a <= m <= b /\ low <= wm <= high))
    /\ (- b <= a -> forall x w, a <= x <= b -> low <= w <= high -> ln_red (w * x) <= r).
Proof.
  change (2 ^ 61) with 2305843009213693952. change (2 ^ 62) with 4611686018427387904.
  intros a b B low high H1 H2 H3 H4 H5 H6 H7 H8 H9.
  destruct (max_red_mul_interval_gen a b B low high) as (r & m & wm & E & H0 & Er & HR & HM);
    [lia|lia|unfold wrange; lia|].
  exists r, m, wm. split; [exact E|]. split; [exact H0|]. split; [exact Er|]. split; [tauto|exact HM].
Qed.

Lemma min_red_mul_interval_exact_L :
  forall a b B low high, a <= b -> Z.abs a <= B -> Z.abs b <= B -> low <= high -> low <> 0 -> high <> 0 ->
  B <= 2 ^ 62 -> Z.abs low <= 2 ^ 61 -> Z.abs high <= 2 ^ 61 -> Z.abs low * B <= 2 ^ 62 -> Z.abs high * B <= 2 ^ 62 ->
  exists r m wm, min_red_mul_interval a b low high = Ok (r, m, wm)
    /\ r <= 0 /\ r = ln_red (wm * m) /\ (r = 0 \/ (a <= m <= b /\ low <= wm <= high))
    /\ (- b <= a -> forall x w, a <= x <= b -> low <= w <= high -> r <= ln_red (w * x)).
Proof.
  change (2 ^ 61) with 2305843009213693952. change (2 ^ 62) with 4611686018427387904.
  intros a b B low high H1 H2 H3 H4 Hl Hh H5 H6 H7 H8 H9.
  destruct (min_red_mul_interval_gen a b B low high) as (r & m & wm & E & H0 & Er & HR & HM);
    [lia|lia|unfold wrange; lia|exact Hl|exact Hh|].
  exists r, m, wm. split; [exact E|]. split; [exact H0|]. split; [exact Er|]. split; [tauto|exact HM].
Qed.

Lemma red_mul_interval_asymmetric_refuted_L :
  exists a b low high x w r1 m1 w1 r2 m2 w2,
    a <= x <= b /\ low <= w <= high
    /\ min_red_mul_interval a b low high = Ok (r1, m1, w1)
    /\ max_red_mul_interval a b low high = Ok (r2, m2, w2)
    /\ ~ ln_red (w * x) <= r2 /\ r1 = 0 /\ r2 = 0.
Proof.
  exists (-60000000), (-55000000), 1, 1, (-60000000), 1, 0, 0, 0, 0, 0, 0.
  split; [lia|]. split; [lia|]. split; [vm_compute; reflexivity|]. split; [vm_compute; reflexivity|].
  split; [vm_compute; intros H; exact (H eq_refl)|]. split; reflexivity.
Qed.

Lemma min_red_mul_interval_zero_refuted_L :
  exists b low high, 0 <= b /\ low <= high /\ low = 0
    /\ min_red_mul_interval (- b) b low high = Err AssertFail
    /\ min_red_mul_interval (- b) b (- high) low = Err AssertFail
    /\ ct_bound b low high = Err AssertFail
    /\ exists r, max_red_mul_interval (- b) b low high = Ok r.
Proof.
  exists 5000, 0, 1. split; [lia|]. split; [lia|]. split; [reflexivity|].
  split; [vm_compute; reflexivity|]. split; [vm_compute; reflexivity|]. split; [vm_compute; reflexivity|].
  eexists. vm_compute. reflexivity.
Qed.
