(** The arithmetic helpers of the generators: power, inverse, logtwo, reverse. *)

From Coq Require Import ZArith List Bool Lia Setoid Morphisms.
From Verif Require Import CSem Spec Loops ModQ ModelGen.
Import ListNotations.
Open Scope Z_scope.

Lemma urem_ok x q : 0 < q -> urem x q = Ok (x mod q).
Proof. intros. unfold urem. replace (q =? 0) with false by lia. reflexivity. Qed.
Lemma udiv_ok x q : 0 < q -> udiv x q = Ok (x / q).
Proof. intros. unfold udiv. replace (q =? 0) with false by lia. reflexivity. Qed.

Lemma land1 k : Z.land k 1 = k mod 2.
Proof. change 1 with (Z.ones 1). now rewrite Z.land_ones by lia. Qed.
Lemma shiftr1 k : Z.shiftr k 1 = k / 2.
Proof. now rewrite Z.shiftr_div_pow2 by lia. Qed.

(** Products of residues fit in 32 bits. *)
Lemma mul_fits x y q : 0 <= x < q -> 0 <= y < q -> q <= 65536 -> u32 (x * y) = x * y.
Proof. intros. apply u32_small. nia. Qed.
Lemma mulmod_ok x y q : 0 <= x < q -> 0 <= y < q -> q <= 65536 ->
  urem (u32 (x * y)) q = Ok ((x * y) mod q).
Proof. intros. rewrite mul_fits with (q := q) by auto. apply urem_ok. lia. Qed.

(** ** power *)

Lemma mod_mul_mod a b q : 0 < q -> ((a mod q) * (b mod q)) mod q = (a * b) mod q.
Proof. intros. symmetry. apply Z.mul_mod. lia. Qed.

Lemma pow_mod_l a e q : 0 < q -> 0 <= e -> ((a mod q) ^ e) mod q = (a ^ e) mod q.
Proof.
  intros Hq. revert e. apply natlike_ind; [reflexivity|]. intros e He IH.
  rewrite !Z.pow_succ_r by lia. rewrite <- mod_mul_mod, Z.mod_mod by lia. rewrite IH.
  apply mod_mul_mod. lia.
Qed.

Lemma power_ok x k q : 1 < q <= 65536 -> 0 <= x < q -> 0 <= k < 4294967296 ->
  power x k q = Ok (x ^ k mod q).
Proof.
  intros Hq Hx Hk. unfold power. replace (0 <? q) with true by lia. cbn [cassert bind].
  assert (G : forall f y k z, 0 <= y < q -> 0 <= z < q -> 0 <= k < 2 ^ Z.of_nat f ->
    exists kk zz, cwhile (S f) (fun '(y, k, x) => negb (k =? 0))
      (fun '(y, k, x) =>
         do y <- (if negb (Z.land k 1 =? 0) then urem (u32 (y * x)) q else Ok y);
         do x' <- urem (u32 (x * x)) q;
         Ok (y, Z.shiftr k 1, x')) (y, k, z) = Ok ((y * z ^ k) mod q, kk, zz)).
  { induction f as [|f IH]; intros y e z Hy Hz He.
    - change (2 ^ Z.of_nat 0) with 1 in He. replace e with 0 by lia. cbn.
      rewrite Z.mul_1_r. rewrite Z.mod_small by lia. eauto.
    - remember (S f) as F. cbn [cwhile]. destruct (Z.eqb_spec e 0) as [->|Hne]; cbn [negb].
      + cbn [Z.pow]. rewrite Z.mul_1_r, Z.mod_small by lia. eauto.
      + rewrite land1, shiftr1.
        assert (Hz2 : 0 <= (z * z) mod q < q) by (apply Z.mod_pos_bound; lia).
        assert (He2 : 0 <= e / 2 < 2 ^ Z.of_nat f).
        { rewrite HeqF, Nat2Z.inj_succ in He. rewrite Z.pow_succ_r in He by lia. lia. }
        assert (Ez : (z ^ 2) ^ (e / 2) = z ^ (2 * (e / 2))) by (rewrite <- Z.pow_mul_r by lia; reflexivity).
        assert (Esq : z * z = z ^ 2) by ring.
        subst F. destruct (Z.eqb_spec (e mod 2) 0) as [E|E]; cbn [negb].
        * cbn [bind]. rewrite mulmod_ok by lia. cbn [bind].
          destruct (IH y (e / 2) ((z * z) mod q) Hy Hz2 He2) as (kk & zz & ->).
          do 2 eexists. do 3 f_equal. rewrite <- mod_mul_mod by lia. rewrite pow_mod_l by lia.
          rewrite mod_mul_mod by lia. rewrite Esq, Ez. do 3 f_equal. lia.
        * rewrite mulmod_ok by lia. cbn [bind]. rewrite mulmod_ok by lia. cbn [bind].
          destruct (IH ((y * z) mod q) (e / 2) ((z * z) mod q)) as (kk & zz & ->);
            [apply Z.mod_pos_bound; lia|exact Hz2|exact He2|].
          do 2 eexists. do 3 f_equal. rewrite <- mod_mul_mod by lia. rewrite pow_mod_l, Z.mod_mod by lia.
          rewrite mod_mul_mod by lia. rewrite Esq, Ez.
          replace e with (Z.succ (2 * (e / 2))) at 2 by lia. rewrite Z.pow_succ_r by lia.
          f_equal. ring. }
  destruct (G 32%nat 1 k x) as (kk & zz & E); [lia|lia|exact Hk|].
  change (fuel 32) with 33%nat. rewrite E. cbn [bind]. rewrite Z.mul_1_l. reflexivity.
Qed.

(** ** inverse *)

Lemma sum_le_mul x q : 0 <= x -> 1 < q <= 2147483647 -> x * q <= 2147483647 -> x + q <= 2147483648.
Proof.
  intros Hx Hq H. destruct (Z.eq_dec x 0); [lia|].
  assert (0 <= (x - 1) * (q - 1)) by (apply Z.mul_nonneg_nonneg; lia). lia.
Qed.
Lemma fac_le x q : 0 <= x -> 1 < q <= 2147483647 -> x * q <= 2147483647 -> 2 * x <= 2147483647.
Proof.
  intros Hx Hq H. assert (x * 2 <= x * q) by (apply Z.mul_le_mono_nonneg_l; lia). lia.
Qed.

Lemma i32_in B z : - B <= z <= B -> B <= 2147483647 -> i32 z = Ok z.
Proof. intros. apply i32_ok. lia. Qed.

Section Inverse.
Variables (x q : Z).
Hypothesis Hx : 0 <= x.
Hypothesis Hq : 1 < q <= 2147483647.
Hypothesis Hxq : x * q <= 2147483647.

Let body := (fun '(r1, r2, u1, u2, v1, v2) =>
       do m <- mul32 x u1; do m' <- mul32 q v1; do s <- add32 m m';
       do _ <- cassert (r1 =? s);
       do m <- mul32 x u2; do m' <- mul32 q v2; do s <- add32 m m';
       do _ <- cassert (r2 =? s);
       do _ <- cassert (0 <=? r1);
       do g <- div32 r1 r2;
       do m <- mul32 g r2; do r2' <- sub32 r1 m;
       do m <- mul32 g u2; do u2' <- sub32 u1 m;
       do m <- mul32 g v2; do v2' <- sub32 v1 m;
       Ok (r2, r2', u2, u2', v2, v2')) : (Z * Z * Z * Z * Z * Z) -> res (Z * Z * Z * Z * Z * Z).

(** [s] is the sign alternating between iterations. *)
Definition euclid_inv (st : Z * Z * Z * Z * Z * Z) : Prop :=
  let '(r1, r2, u1, u2, v1, v2) := st in
  exists s, (s = 1 \/ s = -1)
  /\ 0 <= r1 <= Z.max x q /\ 0 <= r2 <= q
  /\ r1 = x * u1 + q * v1 /\ r2 = x * u2 + q * v2
  /\ r1 * (- s * u2) + r2 * (s * u1) = q
  /\ r1 * (s * v2) + r2 * (- s * v1) = x
  /\ 0 <= s * u1 <= q /\ 0 <= - s * u2 <= q /\ 0 <= - s * v1 <= Z.max 1 x /\ 0 <= s * v2 <= Z.max 1 x
  /\ Z.gcd r1 r2 = Z.gcd x q.

Let xmax z : 0 <= z <= q -> x * z <= 2147483647.
Proof. intros. nia. Qed.
Let qmax z : 0 <= z <= Z.max 1 x -> q * z <= 2147483647.
Proof. intros. destruct (Z.max_spec 1 x) as [[? E]|[? E]]; rewrite E in *; nia. Qed.

Lemma quot_step r1 r2 : 0 <= r1 -> 0 < r2 ->
  0 <= r1 / r2 /\ r1 / r2 * r2 <= r1 /\ 0 <= r1 - r1 / r2 * r2 < r2 /\ r1 - r1 / r2 * r2 = r1 mod r2.
Proof.
  intros. assert (H1 := Z.div_mod r1 r2 ltac:(lia)). assert (H2 := Z.mod_pos_bound r1 r2 ltac:(lia)).
  assert (0 <= r1 / r2) by (apply Z.div_pos; lia).
  rewrite (Z.mul_comm (r1 / r2) r2). lia.
Qed.

Lemma gcd_step r1 r2 : 0 < r2 -> Z.gcd r2 (r1 mod r2) = Z.gcd r1 r2.
Proof. intros. rewrite Z.gcd_comm. rewrite Z.gcd_mod by lia. apply Z.gcd_comm. Qed.

Lemma sign_abs s z B : s = 1 \/ s = -1 -> 0 <= s * z <= B -> - B <= z <= B.
Proof. intros [->| ->] H; lia. Qed.

Lemma euclid_step st : euclid_inv st -> (let '(r1, r2, u1, u2, v1, v2) := st in 0 <? r2) = true ->
  exists st', body st = Ok st' /\ euclid_inv st'
    /\ (let '(r1, r2, u1, u2, v1, v2) := st' in r2) < (let '(r1, r2, u1, u2, v1, v2) := st in r2)
    /\ 0 < (let '(r1, r2, u1, u2, v1, v2) := st in r2).
Proof.
  destruct st as [[[[[r1 r2] u1] u2] v1] v2]. intros (s & Hs & P1 & P2 & I1 & I2 & D1 & D2 & U1 & U2 & V1 & V2 & HG) Hc.
  assert (Hr2 : 0 < r2 <= q) by lia. clear Hc P2.
  assert (R1 : r1 <= 2147483647).
  { assert (H := fac_le x q Hx Hq Hxq). clear -P1 Hq H. lia. }
  destruct (quot_step r1 r2 (proj1 P1) (proj1 Hr2)) as (G0 & G1 & G2 & G3).
  assert (GS := gcd_step r1 r2 (proj1 Hr2)). rewrite <- G3 in GS.
  set (g := r1 / r2) in *. set (r2' := r1 - g * r2) in *.
  (* the new coefficients *)
  set (u2' := u1 - g * u2). set (v2' := v1 - g * v2).
  assert (U2' : 0 <= s * u2' /\ r2 * (s * u2') + r2' * (- s * u2) = q).
  { unfold u2', r2'. split.
    - replace (s * (u1 - g * u2)) with (s * u1 + g * (- s * u2)) by ring.
      assert (0 <= g * (- s * u2)) by (apply Z.mul_nonneg_nonneg; lia). lia.
    - rewrite <- D1. ring. }
  assert (V2' : 0 <= - s * v2' /\ r2 * (- s * v2') + r2' * (s * v2) = x).
  { unfold v2', r2'. split.
    - replace (- s * (v1 - g * v2)) with (- s * v1 + g * (s * v2)) by ring.
      assert (0 <= g * (s * v2)) by (apply Z.mul_nonneg_nonneg; lia). lia.
    - rewrite <- D2. ring. }
  destruct U2' as [U2p U2e]. destruct V2' as [V2p V2e].
  assert (U2b : s * u2' <= q).
  { assert (0 <= r2' * (- s * u2)) by (apply Z.mul_nonneg_nonneg; lia).
    assert (1 * (s * u2') <= r2 * (s * u2')) by (apply Z.mul_le_mono_nonneg_r; lia). lia. }
  assert (V2b : - s * v2' <= x).
  { assert (0 <= r2' * (s * v2)) by (apply Z.mul_nonneg_nonneg; lia).
    assert (1 * (- s * v2') <= r2 * (- s * v2')) by (apply Z.mul_le_mono_nonneg_r; lia). lia. }
  assert (Hns : - s = 1 \/ - s = -1) by (destruct Hs; subst; lia).
  assert (Au1 := sign_abs s u1 q Hs U1). assert (Au2 := sign_abs (- s) u2 q Hns U2).
  assert (Av1 := sign_abs (- s) v1 _ Hns V1). assert (Av2 := sign_abs s v2 _ Hs V2).
  assert (Au2' := sign_abs s u2' q Hs (conj U2p U2b)).
  assert (Av2' := sign_abs (- s) v2' x Hns (conj V2p V2b)).
  assert (Exu : forall z, - q <= z <= q -> -2147483648 <= x * z <= 2147483647).
  { intros z Hz. assert (H := xmax (Z.abs z) ltac:(clear -Hz; lia)).
    assert (Z.abs (x * z) = x * Z.abs z) by (rewrite Z.abs_mul; f_equal; clear -Hx; lia). clear -H H0; lia. }
  assert (Eqv : forall z, - Z.max 1 x <= z <= Z.max 1 x -> -2147483648 <= q * z <= 2147483647).
  { intros z Hz. assert (H := qmax (Z.abs z) ltac:(clear -Hz; lia)).
    assert (Z.abs (q * z) = q * Z.abs z) by (rewrite Z.abs_mul; f_equal; clear -Hq; lia). clear -H H0; lia. }
  assert (Hxx := sum_le_mul x q Hx Hq Hxq). assert (Hx2 := fac_le x q Hx Hq Hxq).
  exists (r2, r2', u2, u2', v2, v2'). split.
  - unfold body. unfold mul32, add32, sub32.
    rewrite (i32_ok (x * u1)) by (apply Exu; assumption). cbn [bind].
    rewrite (i32_ok (q * v1)) by (apply Eqv; assumption). cbn [bind].
    rewrite <- I1. assert (Hr1 : r1 <= 2147483647) by exact R1.
    rewrite (i32_in r1 r1 ltac:(clear -P1; lia) R1). cbn [bind]. rewrite Z.eqb_refl. cbn [cassert bind].
    rewrite (i32_ok (x * u2)) by (apply Exu; assumption). cbn [bind].
    rewrite (i32_ok (q * v2)) by (apply Eqv; assumption). cbn [bind].
    rewrite <- I2. rewrite (i32_in q r2 ltac:(clear -Hr2; lia)) by apply Hq. cbn [bind]. rewrite Z.eqb_refl. cbn [cassert bind].
    replace (0 <=? r1) with true by (clear -P1; lia). cbn [cassert bind].
    unfold div32. replace (r2 =? 0) with false by (clear -Hr2; lia).
    replace ((r1 =? -2147483648) && (r2 =? -1)) with false by (clear -Hr2; lia). cbn [bind].
    rewrite Z.quot_div_nonneg by (clear -P1 Hr2; lia). fold g.
    rewrite (i32_in r1 (g * r2) ltac:(clear -G1 G0 Hr2; nia) R1). cbn [bind]. fold r2'.
    rewrite (i32_in r2 r2' ltac:(clear -G2; lia)) by (clear -Hr2 Hq; lia). cbn [bind].
    assert (Gu : -2147483648 <= g * u2 <= 2147483647).
    { assert (E : g * u2 = u1 - u2') by (unfold u2'; ring). rewrite E.
      assert (Gg : - q <= s * (u1 - u2') <= q).
      { rewrite Z.mul_sub_distr_l. clear -U1 U2p U2b. lia. }
      clear -Gg Hs Hq. destruct Hs; subst; lia. }
    rewrite (i32_ok (g * u2)) by exact Gu. cbn [bind]. fold u2'.
    rewrite (i32_in q u2' Au2') by apply Hq. cbn [bind].
    assert (Gv : -2147483648 <= g * v2 <= 2147483647).
    { assert (E : g * v2 = v1 - v2') by (unfold v2'; ring). rewrite E.
      assert (Gg : - Z.max 1 x <= - s * (v1 - v2') <= Z.max 1 x).
      { rewrite Z.mul_sub_distr_l. clear -V1 V2p V2b. lia. }
      clear -Gg Hs Hx2. destruct Hs; subst; lia. }
    rewrite (i32_ok (g * v2)) by exact Gv. cbn [bind]. fold v2'.
    rewrite (i32_in x v2' Av2') by (clear -Hx2; lia). reflexivity.
  - split; [|clear -G2 Hr2; lia]. exists (- s).
    split; [exact Hns|]. split; [clear -Hr2; lia|]. split; [clear -G2 Hr2; lia|].
    split; [exact I2|]. split.
    { unfold r2', u2', v2'. rewrite I1, I2. ring. }
    rewrite !Z.opp_involutive. split; [exact U2e|]. split; [exact V2e|].
    split; [exact U2|]. split; [split; [exact U2p|exact U2b]|]. split; [exact V2|].
    split; [clear -V2p V2b; lia|].
    rewrite <- HG. exact GS.
Qed.
End Inverse.

Lemma inverse_ok x q : 0 <= x -> 1 < q <= 2147483647 -> x * q <= 2147483647 ->
  (Z.gcd x q = 1 /\ exists i, inverse x q = Ok (Some i) /\ 0 <= i < q /\ (x * i) mod q = 1)
  \/ (Z.gcd x q <> 1 /\ inverse x q = Ok None).
Proof.
  intros Hx Hq Hxq. assert (Hx31 := fac_le x q Hx Hq Hxq).
  unfold inverse. rewrite !to_i32_small by lia.
  match goal with |- context [cwhile _ ?c ?b ?s] =>
    destruct (cwhile_rule (euclid_inv x q) (fun '(r1, r2, u1, u2, v1, v2) => r2) c b) with (f := fuel (x + q)) (st := s)
      as (st & E & HI & Hc) end.
  - intros st HI Hc. destruct (euclid_step x q Hx Hq Hxq st HI) as (st' & E1 & E2 & E3 & E4).
    + destruct st as [[[[[r1 r2] u1] u2] v1] v2]. exact Hc.
    + exists st'. split; [exact E1|]. split; [exact E2|].
      destruct st as [[[[[r1 r2] u1] u2] v1] v2]. destruct st' as [[[[[r1' r2'] u1'] u2'] v1'] v2']. auto.
  - exists 1. split; [auto|]. repeat split; try lia.
  - unfold fuel. lia.
  - rewrite E. cbn [bind]. destruct st as [[[[[r1 r2] u1] u2] v1] v2].
    destruct HI as (s & Hs & P1 & P2 & I1 & I2 & D1 & D2 & U1 & U2 & V1 & V2 & HG).
    assert (Hr : r2 = 0) by (clear -P2 Hc; lia). rewrite Hr in HG. rewrite Z.gcd_0_r, Z.abs_eq in HG by lia.
    destruct (Z.eqb_spec r1 1) as [->|Hne].
    + left. split; [lia|]. unfold rem32. replace (q =? 0) with false by lia.
      replace ((u1 =? -2147483648) && (q =? -1)) with false by lia. cbn [bind].
      set (i := u1 mod q).
      assert (Hi : 0 <= i < q) by (apply Z.mod_pos_bound; lia).
      assert (Ei : (if Z.rem u1 q <? 0 then to_i32 (u32 (Z.rem u1 q + q)) else Z.rem u1 q) = i).
      { destruct (Z.leb_spec 0 u1).
        - rewrite Z.rem_mod_nonneg by lia. fold i. replace (i <? 0) with false by lia. reflexivity.
        - assert (Er : Z.rem u1 q = - ((- u1) mod q)).
          { rewrite <- (Z.opp_involutive u1) at 1. rewrite Z.rem_opp_l by lia.
            rewrite Z.rem_mod_nonneg by lia. reflexivity. }
          assert (H0 := Z.mod_pos_bound (- u1) q ltac:(lia)).
          rewrite Er. destruct (Z.eq_dec ((- u1) mod q) 0) as [Z0|Z0].
          + rewrite Z0. cbn. unfold i. rewrite <- (Z.opp_involutive u1).
            rewrite Z.mod_opp_l_z by lia. reflexivity.
          + replace (- ((- u1) mod q) <? 0) with true by lia.
            rewrite u32_small by (clear -H0 Hq; lia). rewrite to_i32_small by (clear -H0 Hq; lia). unfold i.
            assert (EE : u1 mod q = q - (- u1) mod q).
            { rewrite <- (Z.opp_involutive u1) at 1. apply Z.mod_opp_l_nz; [clear -Hq; lia|exact Z0]. }
            rewrite EE. ring. }
      rewrite Ei. unfold mul32. assert (Hxi : 0 <= x * i <= 2147483647).
      { split; [apply Z.mul_nonneg_nonneg; lia|].
        assert (x * i <= x * q) by (apply Z.mul_le_mono_nonneg_l; lia). lia. }
      rewrite i32_ok by lia. cbn [bind].
      replace ((x * i =? -2147483648) && (q =? -1)) with false by lia. cbn [bind].
      rewrite Z.rem_mod_nonneg by lia.
      assert (EI : (x * i) mod q = 1).
      { unfold i. rewrite Z.mul_mod_idemp_r by lia.
        replace (x * u1) with (1 + (- v1) * q) by lia. rewrite Z.mod_add by lia. apply Z.mod_small. lia. }
      rewrite EI. cbn [Z.eqb Pos.eqb cassert bind]. exists i. rewrite u32_small by (clear -Hi Hq; lia). auto.
    + right. split; [lia|reflexivity].
Qed.

(** ** logtwo *)

Lemma logtwo_ok n : 1 <= n < 4294967296 ->
  (exists k, 0 <= k < 32 /\ n = 2 ^ k /\ logtwo n = Ok (Some k))
  \/ ((forall k, 0 <= k -> n <> 2 ^ k) /\ logtwo n = Ok None).
Proof.
  intros Hn. unfold logtwo.
  destruct (cwhile_rule (fun '(i, m) => 0 <= i < 32 /\ n = m * 2 ^ i /\ 1 <= m) (fun '(i, m) => 32 - i)
    (fun '(i, n) => Z.land n 1 =? 0) (fun '(i, n) => Ok (u32 (i + 1), Z.shiftr n 1)))
    with (f := fuel 32) (st := (0, n)) as ([i m] & E & (Hi & Hm & Hm1) & Hc).
  - intros [i m] (Hi & Hm & Hm1) Hc. rewrite land1 in Hc. exists (i + 1, m / 2).
    rewrite u32_small by lia. rewrite shiftr1. split; [reflexivity|].
    assert (Em : m = 2 * (m / 2)) by lia.
    assert (Hp : 0 < 2 ^ i) by (apply pow2_pos; lia).
    assert (Ep : 2 ^ (i + 1) = 2 * 2 ^ i) by (apply pow2_succ; lia).
    assert (Hi31 : i < 31).
    { destruct (Z.eq_dec i 31) as [->|]; [|lia]. change (2 ^ 31) with 2147483648 in Hm. lia. }
    split; [|lia]. split; [lia|]. split; [|lia]. rewrite Ep. rewrite Em in Hm. rewrite Hm. ring.
  - cbn. lia.
  - unfold fuel. lia.
  - rewrite E. cbn [bind]. rewrite land1 in Hc. destruct (Z.eqb_spec m 1) as [->|Hne].
    + left. exists i. rewrite Z.mul_1_l in Hm. auto.
    + right. split; [|reflexivity]. intros k Hk Ek.
      assert (Hp : 0 < 2 ^ i) by (apply pow2_pos; lia).
      destruct (Z.leb_spec k i) as [Hki|Hki].
      * assert (2 ^ k <= 2 ^ i) by (apply Z.pow_le_mono_r; lia). nia.
      * replace k with (i + 1 + (k - i - 1)) in Ek by lia. rewrite !Z.pow_add_r in Ek by lia.
        assert (m = 2 * 2 ^ (k - i - 1)) by nia. lia.
Qed.

(** ** reverse *)

Lemma bitrev_low_bits k i : 0 <= k -> bitrev (k + 1) i = 2 * bitrev k i + (i / 2 ^ k) mod 2.
Proof.
  intros Hk. revert k Hk i. apply (natlike_ind (fun k => forall i, bitrev (k + 1) i = 2 * bitrev k i + (i / 2 ^ k) mod 2)).
  - intros i. change (0 + 1) with (0 + 1). rewrite bitrev_succ by lia. rewrite !bitrev_0.
    change (2 ^ 0) with 1. rewrite Z.div_1_r. lia.
  - intros k Hk IH i. unfold Z.succ. rewrite bitrev_succ by lia. rewrite IH.
    rewrite (bitrev_succ k i) by lia. rewrite pow2_succ by lia.
    rewrite <- (Z.div_div i 2) by (try apply pow2_pos; lia). ring.
Qed.

Lemma lor_bit x b : 0 <= x -> 0 <= b <= 1 -> Z.lor (2 * x) b = 2 * x + b.
Proof.
  intros Hx Hb. assert (b = 0 \/ b = 1) as [->| ->] by lia.
  - rewrite Z.lor_0_r. lia.
  - destruct x; [reflexivity|reflexivity|lia].
Qed.

Lemma reverse_ok i k : 0 <= i -> 0 <= k <= 32 -> reverse i k = Ok (bitrev k i).
Proof.
  intros Hi Hk. unfold reverse.
  destruct (cfor_count (fun c '(x, m) => x = bitrev c i /\ m = i / 2 ^ c) k (fun c => c)
    (fun j => j <? k) (fun j => u32 (j + 1))
    (fun j '(x, i) => Ok (Z.lor (u32 (Z.shiftl x 1)) (Z.land i 1), Z.shiftr i 1)))
    with (f := fuel k) (i0 := 0) (st := (0, i)) as ([x m] & E & Hx & Hm).
  - lia.
  - intros. lia.
  - lia.
  - intros. apply u32_small. lia.
  - intros c [x m] Hc [-> ->]. eexists. split; [reflexivity|].
    rewrite shiftr1, land1, Z.shiftl_mul_pow2 by lia. change (2 ^ 1) with 2.
    assert (HR := bitrev_range c i ltac:(lia)).
    assert (HB : 2 ^ c <= 2 ^ 31) by (apply Z.pow_le_mono_r; lia).
    change (2 ^ 31) with 2147483648 in HB.
    rewrite u32_small by lia. rewrite (Z.mul_comm _ 2). rewrite lor_bit by lia.
    rewrite bitrev_low_bits by lia. split; [reflexivity|].
    rewrite pow2_succ by lia. rewrite Z.div_div by (try apply pow2_pos; lia). f_equal. ring.
  - reflexivity.
  - unfold fuel. lia.
  - rewrite bitrev_0. change (2 ^ 0) with 1. rewrite Z.div_1_r. auto.
  - rewrite E. cbn [bind]. rewrite Hx. reflexivity.
Qed.

Lemma find_k_ok : find_k 12289 = Ok 3.
Proof. vm_compute. reflexivity. Qed.
