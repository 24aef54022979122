(** Properties of the bound computations of src/red_bounds.c and of the interval
    transformer of the verifier: C32-C36, C42, C43. *)

From Coq Require Import ZArith List Bool Lia.
From Verif Require Import CSem Spec ModelBounds BoundsFinal.
From Verif Require ModelRed.
Import ListNotations.
Open Scope Z_scope.

(** C32: the computed interval contains the reduction of every member, both ends are
    attained *)
Theorem verifier_red_exact :
  forall a b, a <= b -> exists lo hi, verifier_red (Some a) (Some b) = Some (lo, hi)
    /\ (forall x, a <= x <= b -> lo <= ln_red x <= hi)
    /\ (exists x, a <= x <= b /\ ln_red x = lo) /\ (exists x, a <= x <= b /\ ln_red x = hi).
Proof. exact verifier_red_exact_L. Qed.
Print Assumptions verifier_red_exact.

Example verifier_red_ex : verifier_red (Some (-5000)) (Some 100000000) = Some (-24414, 12287).
Proof. vm_compute. reflexivity. Qed.
Example verifier_red_small_ex : verifier_red (Some 10) (Some 20) = Some (30, 60).
Proof. vm_compute. reflexivity. Qed.

(** C32: an unbounded argument gives an unconstrained result *)
Theorem verifier_red_unbounded :
  forall a b, verifier_red None b = None /\ verifier_red a None = None.
Proof. exact verifier_red_unbounded_L. Qed.
Print Assumptions verifier_red_unbounded.

(** C33 *)
Theorem max_red_exact :
  forall a b, a <= b -> in_i64 a = true -> in_i64 b = true ->
  exists m, max_red a b = Ok (ln_red m, m) /\ a <= m <= b
    /\ forall x, a <= x <= b -> ln_red x <= ln_red m.
Proof. exact max_red_exact_L. Qed.
Print Assumptions max_red_exact.

Example max_red_ex : max_red (-5000) 100000000 = Ok (12287, -4097).
Proof. vm_compute. reflexivity. Qed.

(** C33 *)
Theorem min_red_exact :
  forall a b, a <= b -> in_i64 a = true -> in_i64 b = true ->
  exists m, min_red a b = Ok (ln_red m, m) /\ a <= m <= b
    /\ forall x, a <= x <= b -> ln_red m <= ln_red x.
Proof. exact min_red_exact_L. Qed.
Print Assumptions min_red_exact.

Example min_red_ex : min_red (-5000) 100000000 = Ok (-24414, 99999744).
Proof. vm_compute. reflexivity. Qed.

(** C34: also returns a point where the maximum is attained *)
Theorem max_red_mul_exact :
  forall a b w, a <= b -> w <> 0 -> Z.abs w <= 2 ^ 61 -> Z.abs (w * a) <= 2 ^ 62 -> Z.abs (w * b) <= 2 ^ 62 ->
  exists m, max_red_mul a b w = Ok (ln_red (w * m), m) /\ a <= m <= b
    /\ forall x, a <= x <= b -> ln_red (w * x) <= ln_red (w * m).
Proof. exact max_red_mul_exact_L. Qed.
Print Assumptions max_red_mul_exact.

Example max_red_mul_ex : max_red_mul (-300) 500 (-1212) = Ok (12414, 463)
  /\ max_red_mul (-1000000) 1000000 6144 = Ok (1506143, -999999).
Proof. split; vm_compute; reflexivity. Qed.

(** C34 *)
Theorem min_red_mul_exact :
  forall a b w, a <= b -> w <> 0 -> Z.abs w <= 2 ^ 61 -> Z.abs (w * a) <= 2 ^ 62 -> Z.abs (w * b) <= 2 ^ 62 ->
  exists m, min_red_mul a b w = Ok (ln_red (w * m), m) /\ a <= m <= b
    /\ forall x, a <= x <= b -> ln_red (w * m) <= ln_red (w * x).
Proof. exact min_red_mul_exact_L. Qed.
Print Assumptions min_red_mul_exact.

(** A multiple of 4096 as constant. *)
Example red_mul_large_power_ex : max_red_mul (-300) 500 8192 = Ok (600, -300) /\ min_red_mul (-300) 500 8192 = Ok (-1000, 500).
Proof. repeat split; vm_compute; reflexivity. Qed.

Example min_red_mul_ex : min_red_mul (-300) 500 (-1212) = Ok (-19, -267).
Proof. vm_compute. reflexivity. Qed.

(** C42: no result for w = 0: the helper that looks for the largest power of two
    dividing w shifts until it overflows, the other one divides by w *)
Theorem red_mul_zero_constant_refuted :
  forall a b, a <= b -> in_i64 a = true -> in_i64 b = true ->
  max_red_mul a b 0 = Err SignedOverflow /\ min_red_mul a b 0 = Err DivByZero.
Proof. exact red_mul_zero_constant_refuted_L. Qed.
Print Assumptions red_mul_zero_constant_refuted.

Example red_mul_zero_constant_ex : ct_bound_fixed 100 0 = Err DivByZero.
Proof. vm_compute. reflexivity. Qed.

(** C35: the bound holds for every butterfly, and is attained *)
Theorem ct_bound_exact :
  forall b low high, 0 <= b -> low <= high -> low <> 0 -> high <> 0 ->
  b <= 2 ^ 61 -> Z.abs low <= 2 ^ 61 -> Z.abs high <= 2 ^ 61 ->
  Z.abs low * b <= 2 ^ 61 -> Z.abs high * b <= 2 ^ 61 ->
  exists c, ct_bound b low high = Ok c
    /\ (forall x y w, - b <= x <= b -> - b <= y <= b -> low <= w <= high ->
          Z.abs (x + ln_red (w * y)) <= c /\ Z.abs (x - ln_red (w * y)) <= c)
    /\ (exists x y w, - b <= x <= b /\ - b <= y <= b /\ low <= w <= high
          /\ (Z.abs (x + ln_red (w * y)) = c \/ Z.abs (x - ln_red (w * y)) = c)).
Proof. exact ct_bound_exact_L. Qed.
Print Assumptions ct_bound_exact.

Example ct_bound_ex : ct_bound 200 (-3) 5 = Ok 12486.
Proof. vm_compute. reflexivity. Qed.

(** C35 *)
Theorem gs_bound_exact :
  forall b low high, 0 <= b -> low <= high -> low <> 0 -> high <> 0 ->
  b <= 2 ^ 60 -> Z.abs low <= 2 ^ 61 -> Z.abs high <= 2 ^ 61 ->
  Z.abs low * b <= 2 ^ 60 -> Z.abs high * b <= 2 ^ 60 ->
  exists c, gs_bound b low high = Ok c
    /\ (forall x y w, - b <= x <= b -> - b <= y <= b -> low <= w <= high ->
          Z.abs (x + y) <= c /\ Z.abs (ln_red (w * (x - y))) <= c)
    /\ (exists x y w, - b <= x <= b /\ - b <= y <= b /\ low <= w <= high
          /\ (Z.abs (x + y) = c \/ Z.abs (ln_red (w * (x - y))) = c)).
Proof. exact gs_bound_exact_L. Qed.
Print Assumptions gs_bound_exact.

Example gs_bound_ex : gs_bound 200 (-3) 5 = Ok 12286 /\ gs_bound 20000 (-3) 5 = Ok 40000.
Proof. split; vm_compute; reflexivity. Qed.

(** C35 *)
Theorem ct_bound_fixed_exact :
  forall b w, 0 <= b -> w <> 0 -> b <= 2 ^ 61 -> Z.abs w <= 2 ^ 61 -> Z.abs w * b <= 2 ^ 61 ->
  exists c, ct_bound_fixed b w = Ok c
    /\ (forall x y, - b <= x <= b -> - b <= y <= b ->
          Z.abs (x + ln_red (w * y)) <= c /\ Z.abs (x - ln_red (w * y)) <= c)
    /\ (exists x y, - b <= x <= b /\ - b <= y <= b
          /\ (Z.abs (x + ln_red (w * y)) = c \/ Z.abs (x - ln_red (w * y)) = c)).
Proof. exact ct_bound_fixed_exact_L. Qed.
Print Assumptions ct_bound_fixed_exact.

Example ct_bound_fixed_ex : ct_bound_fixed 12288 (-4096) = Ok 24576.
Proof. vm_compute. reflexivity. Qed.

(** C35 *)
Theorem gs_bound_fixed_exact :
  forall b w, 0 <= b -> w <> 0 -> b <= 2 ^ 60 -> Z.abs w <= 2 ^ 61 -> Z.abs w * b <= 2 ^ 60 ->
  exists c, gs_bound_fixed b w = Ok c
    /\ (forall x y, - b <= x <= b -> - b <= y <= b ->
          Z.abs (x + y) <= c /\ Z.abs (ln_red (w * (x - y))) <= c)
    /\ (exists x y, - b <= x <= b /\ - b <= y <= b
          /\ (Z.abs (x + y) = c \/ Z.abs (ln_red (w * (x - y))) = c)).
Proof. exact gs_bound_fixed_exact_L. Qed.
Print Assumptions gs_bound_fixed_exact.

Example gs_bound_fixed_ex : gs_bound_fixed 300 1212 = Ok 12414.
Proof. vm_compute. reflexivity. Qed.

(** C35: the bounds computed for the rounds hold for every butterfly of the round and are attained
    by one of them, and the bound returned holds for the arrays computed by the Cooley-Tukey transforms of
    src/ntt_red.c, which do not overflow when it fits in 32 bits.  For the variants
    that do not multiply for j = 0 the constants p[1], p[2], p[4].. are -4096, the
    representation of 1. *)
Theorem ntt_ct_bounds_sound :
  forall k b0 p bound, 0 <= k <= 12 -> 0 <= b0 <= 2 ^ 29 ->
  zlen p = 2 ^ k -> (forall i, 1 <= i < 2 ^ k -> at_ p i <> 0 /\ -6144 <= at_ p i <= 6144) ->
  k < zlen bound ->
  exists B bd, ntt_ct_bounds b0 (2 ^ k) p bound = Ok (B, bd)
    /\ zlen bd = zlen bound /\ at_ bd 0 = b0 /\ at_ bd k = B
    /\ (forall l j x y, 0 <= l < k -> 0 <= j < 2 ^ l -> Z.abs x <= at_ bd l -> Z.abs y <= at_ bd l ->
          Z.abs (x + ln_red (at_ p (2 ^ l + j) * y)) <= at_ bd (l + 1)
          /\ Z.abs (x - ln_red (at_ p (2 ^ l + j) * y)) <= at_ bd (l + 1))
    /\ (forall l, 0 <= l < k -> exists j x y, 0 <= j < 2 ^ l /\ Z.abs x <= at_ bd l /\ Z.abs y <= at_ bd l
          /\ (Z.abs (x + ln_red (at_ p (2 ^ l + j) * y)) = at_ bd (l + 1)
              \/ Z.abs (x - ln_red (at_ p (2 ^ l + j) * y)) = at_ bd (l + 1)))
    /\ (B <= 2147483647 -> forall a, zlen a = 2 ^ k -> (forall i, 0 <= i < 2 ^ k -> Z.abs (at_ a i) <= b0) ->
          forall run, run = ModelRed.mulntt_red_ct_rev2std \/ run = ModelRed.mulntt_red_ct_std2rev
            \/ ((forall l, 0 <= l < k -> at_ p (2 ^ l) = -4096)
                /\ (run = ModelRed.ntt_red_ct_rev2std \/ run = ModelRed.ntt_red_ct_std2rev)) ->
          exists r, run a (2 ^ k) p = Ok r /\ zlen r = 2 ^ k
            /\ forall i, 0 <= i < 2 ^ k -> Z.abs (at_ r i) <= B).
Proof. exact ntt_ct_bounds_sound_L. Qed.
Print Assumptions ntt_ct_bounds_sound.

Example ntt_ct_bounds_ex :
  ntt_ct_bounds 300 4 [0; -4096; -4096; 1212] [0; 0; 0] = Ok (13014, [300; 600; 13014])
  /\ ModelRed.ntt_red_ct_rev2std [300; -200; 100; 300] 4 [0; -4096; -4096; 1212] = Ok [500; 10640; -300; -9640].
Proof. split; vm_compute; reflexivity. Qed.

(** C35: the same for the Gentleman-Sande transforms.  The assertion in mul_red is
    stricter than the type by 12286, so the bound has to be below 2^31 - 12286. *)
Theorem ntt_gs_bounds_sound :
  forall k b0 p bound, 0 <= k <= 12 -> 0 <= b0 <= 2 ^ 29 ->
  zlen p = 2 ^ k -> (forall i, 1 <= i < 2 ^ k -> at_ p i <> 0 /\ -6144 <= at_ p i <= 6144) ->
  k < zlen bound ->
  exists B bd, ntt_gs_bounds b0 (2 ^ k) p bound = Ok (B, bd)
    /\ zlen bd = zlen bound /\ at_ bd 0 = b0 /\ at_ bd k = B
    /\ (forall l j x y, 0 <= l < k -> 0 <= j < 2 ^ (k - 1 - l) -> Z.abs x <= at_ bd l -> Z.abs y <= at_ bd l ->
          Z.abs (x + y) <= at_ bd (l + 1)
          /\ Z.abs (ln_red (at_ p (2 ^ (k - 1 - l) + j) * (x - y))) <= at_ bd (l + 1))
    /\ (forall l, 0 <= l < k -> exists j x y, 0 <= j < 2 ^ (k - 1 - l) /\ Z.abs x <= at_ bd l /\ Z.abs y <= at_ bd l
          /\ (Z.abs (x + y) = at_ bd (l + 1)
              \/ Z.abs (ln_red (at_ p (2 ^ (k - 1 - l) + j) * (x - y))) = at_ bd (l + 1)))
    /\ (B < 2 ^ 31 - 12286 -> forall a, zlen a = 2 ^ k -> (forall i, 0 <= i < 2 ^ k -> Z.abs (at_ a i) <= b0) ->
          forall run, run = ModelRed.nttmul_red_gs_rev2std \/ run = ModelRed.nttmul_red_gs_std2rev
            \/ run = ModelRed.ntt_red_gs_rev2std \/ run = ModelRed.ntt_red_gs_std2rev ->
          exists r, run a (2 ^ k) p = Ok r /\ zlen r = 2 ^ k
            /\ forall i, 0 <= i < 2 ^ k -> Z.abs (at_ r i) <= B).
Proof. exact ntt_gs_bounds_sound_L. Qed.
Print Assumptions ntt_gs_bounds_sound.

Example ntt_gs_bounds_ex :
  ntt_gs_bounds 300 4 [0; -4096; -4096; 1212] [0; 0; 0] = Ok (24828, [300; 12414; 24828]).
Proof. vm_compute. reflexivity. Qed.

(** C36: exact (or 0) if the range of x is not below - b; an end that is not 0 is attained at
    the arguments that are returned *)
Theorem max_red_mul_interval_exact :
  forall a b B low high, a <= b -> Z.abs a <= B -> Z.abs b <= B -> low <= high ->
  B <= 2 ^ 62 -> Z.abs low <= 2 ^ 61 -> Z.abs high <= 2 ^ 61 -> Z.abs low * B <= 2 ^ 62 -> Z.abs high * B <= 2 ^ 62 ->
  exists r m wm, max_red_mul_interval a b low high = Ok (r, m, wm)
    /\ 0 <= r /\ r = ln_red (wm * m) /\ (r = 0 \/ (a <= m <= b /\ low <= wm <= high))
    /\ (- b <= a -> forall x w, a <= x <= b -> low <= w <= high -> ln_red (w * x) <= r).
Proof. exact max_red_mul_interval_exact_L. Qed.
Print Assumptions max_red_mul_interval_exact.

Example max_red_mul_interval_ex : max_red_mul_interval (-300) 300 (-3) 5 = Ok (12286, 1, -1)
  /\ max_red_mul_interval (-300) 420 (-3) 5 = Ok (12286, 1, -1)
  /\ max_red_mul_interval 300 400000 (-30) (-20) = Ok (15206, 399087, -30)
  /\ max_red_mul_interval (-4) (-3) 5 5 = Ok (12244, -3, 5).
Proof. repeat split; vm_compute; reflexivity. Qed.

(** C36 *)
Theorem min_red_mul_interval_exact :
  forall a b B low high, a <= b -> Z.abs a <= B -> Z.abs b <= B -> low <= high -> low <> 0 -> high <> 0 ->
  B <= 2 ^ 62 -> Z.abs low <= 2 ^ 61 -> Z.abs high <= 2 ^ 61 -> Z.abs low * B <= 2 ^ 62 -> Z.abs high * B <= 2 ^ 62 ->
  exists r m wm, min_red_mul_interval a b low high = Ok (r, m, wm)
    /\ r <= 0 /\ r = ln_red (wm * m) /\ (r = 0 \/ (a <= m <= b /\ low <= wm <= high))
    /\ (- b <= a -> forall x w, a <= x <= b -> low <= w <= high -> r <= ln_red (w * x)).
Proof. exact min_red_mul_interval_exact_L. Qed.
Print Assumptions min_red_mul_interval_exact.

Example min_red_mul_interval_ex : min_red_mul_interval (-3000) 3000 (-3) 5 = Ok (-2, 2048, 4)
  /\ min_red_mul_interval (-1000) 3000 (-3) 5 = Ok (-2, 2048, 4)
  /\ min_red_mul_interval 300 400000 (-30) (-20) = Ok (0, 0, 0)
  /\ min_red_mul_interval 300 400000 20 30 = Ok (-2925, 399360, 30).
Proof. repeat split; vm_compute; reflexivity. Qed.

(** C36: on other intervals the result need not bound anything *)
Theorem red_mul_interval_asymmetric_refuted :
  exists a b low high x w r1 m1 w1 r2 m2 w2,
    a <= x <= b /\ low <= w <= high
    /\ min_red_mul_interval a b low high = Ok (r1, m1, w1)
    /\ max_red_mul_interval a b low high = Ok (r2, m2, w2)
    /\ ~ ln_red (w * x) <= r2 /\ r1 = 0 /\ r2 = 0.
Proof. exact red_mul_interval_asymmetric_refuted_L. Qed.
Print Assumptions red_mul_interval_asymmetric_refuted.

(** C43: with assertions enabled min_red_mul_interval aborts when one end of the
    interval of constants is 0 (max_red_mul_interval does not) *)
Theorem min_red_mul_interval_zero_refuted :
  exists b low high, 0 <= b /\ low <= high /\ low = 0
    /\ min_red_mul_interval (- b) b low high = Err AssertFail
    /\ min_red_mul_interval (- b) b (- high) low = Err AssertFail
    /\ ct_bound b low high = Err AssertFail
    /\ exists r, max_red_mul_interval (- b) b low high = Ok r.
Proof. exact min_red_mul_interval_zero_refuted_L. Qed.
Print Assumptions min_red_mul_interval_zero_refuted.
