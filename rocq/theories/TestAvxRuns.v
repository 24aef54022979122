(** The tests of the products in test_avx.c, and its speed tests. *)

From Coq Require Import ZArith List Bool Lia.
From Verif Require Import CSem Spec Loops ModQ Conv HeapElem RedElem AvxSem AvxElem AvxArrays AvxFinal ModelRed ModelAvx ModelSort ElemFinal
  ModelTests TestsElem TestsSound TestsRun ModelTestAvx TestAvxElem.
Import ListNotations.
Open Scope Z_scope.

Lemma redz_i32 z : lo43 <= z < 2 ^ 43 -> to_i32 (redz z) = redz z.
Proof.
  intros H. apply to_i32_small. unfold lo43 in H. change (2 ^ 43) with 8796093022208 in H. unfold redz. lia.
Qed.

Lemma half_range y j : 0 <= j -> -1073741824 <= y <= 1073741823 -> -1073741824 <= y / 2 ^ j <= 1073741823.
Proof.
  intros Hj Hy. assert (0 < 2 ^ j) by (apply Z.pow_pos_nonneg; lia).
  split; [apply Z.div_le_lower_bound; nia|].
  assert (y / 2 ^ j < 1073741824); [apply Z.div_lt_upper_bound; nia|lia].
Qed.

Lemma half_step y j : 0 <= j -> Z.shiftr (y / 2 ^ j) 1 = y / 2 ^ (j + 1).
Proof.
  intros Hj. rewrite Z.shiftr_div_pow2 by lia. rewrite Z.div_div by (try apply Z.pow_pos_nonneg; lia).
  rewrite <- Z.pow_add_r by lia. reflexivity.
Qed.

Lemma half_last y : -1073741824 <= y <= 1073741823 -> y / 2 ^ 31 = 0 \/ y / 2 ^ 31 = -1.
Proof.
  intros Hy. change (2 ^ 31) with 2147483648. lia.
Qed.

Lemma shrink_ok x y : -1073741824 <= x <= 1073741823 -> -1073741824 <= y <= 1073741823 ->
  exists j, 0 <= j <= 31 /\ shrink x y = Ok (y / 2 ^ j) /\ lo43 <= x * (y / 2 ^ j) <= hi43.
Proof.
  intros Hx Hy. unfold shrink. unfold mul64 at 1. rewrite i64_ok by nia. cbn [bind].
  match goal with |- context [cwhile _ ?C ?B _] => set (c := C); set (body := B) end.
  assert (G : forall f j, 0 <= j <= 31 -> 31 - j < Z.of_nat f -> exists j', 0 <= j' <= 31
    /\ cwhile f c body (y / 2 ^ j, x * (y / 2 ^ j)) = Ok (y / 2 ^ j', x * (y / 2 ^ j')) /\ lo43 <= x * (y / 2 ^ j') <= hi43).
  { induction f; intros j Hj Hf; [lia|]. cbn [cwhile]. unfold c at 1.
    destruct (in_bounds (x * (y / 2 ^ j))) eqn:EB; cbn [negb].
    - exists j. split; [exact Hj|]. split; [reflexivity|]. apply in_bounds_spec. exact EB.
    - assert (D : j <> 31).
      { intros ->. assert (K : in_bounds (x * (y / 2 ^ 31)) = true).
        { apply in_bounds_spec. unfold lo43, hi43. destruct (half_last y Hy) as [-> | ->]; lia. }
        congruence. }
      unfold body at 1. rewrite half_step by lia. assert (R := half_range y (j + 1) ltac:(lia) Hy).
      unfold mul64. rewrite i64_ok by nia. cbn [bind]. apply IHf; lia. }
  destruct (G (fuel 32) 0 ltac:(lia) ltac:(unfold fuel; lia)) as (j & Hj & E & B).
  change (2 ^ 0) with 1 in E. rewrite Z.div_1_r in E.
  rewrite E. cbn [bind]. exists j. auto.
Qed.

Section Random.
Variables (rnd : Z -> Z) (stk : Z -> heap) (tries : nat).
Hypothesis Hrnd : forall k, 0 <= rnd k < 2147483648.

Notation coef := (coef rnd).
Notation coef16 := (coef16 rnd).

Lemma draws_ok n a b r : 0 <= n < 4294967296 -> zlen a = n -> zlen b = n ->
  exists a' b', random_arrays_for_mul_reduce rnd wide a b n r = Ok (a', b', r + 2 * n) /\ zlen a' = n /\ zlen b' = n
    /\ forall i, 0 <= i < n -> at_ a' i = coef (r + 2 * i) /\ exists j, 0 <= j <= 31 /\ at_ b' i = coef (r + 2 * i + 1) / 2 ^ j
      /\ lo43 <= at_ a' i * at_ b' i <= hi43.
Proof.
  intros Hn La Lb. unfold random_arrays_for_mul_reduce.
  match goal with |- context [loop n ?B ?s0] =>
    destruct (loop_ok (fun m (s : list Z * list Z * Z) => let '(a', b', r') := s in r' = r + 2 * m /\ zlen a' = n /\ zlen b' = n
      /\ forall i, 0 <= i < m -> at_ a' i = coef (r + 2 * i) /\ exists j, 0 <= j <= 31 /\ at_ b' i = coef (r + 2 * i + 1) / 2 ^ j
      /\ lo43 <= at_ a' i * at_ b' i <= hi43) n B s0 Hn) as (((a' & b') & r') & E & -> & La' & Lb' & V) end.
  - split; [lia|]. split; [exact La|]. split; [exact Lb|]. intros; lia.
  - intros i ((a1 & b1) & r1) Hi (-> & La1 & Lb1 & V). rewrite (coef_ok rnd Hrnd). cbn [bind]. rewrite (coef_ok rnd Hrnd). cbn [bind].
    destruct (shrink_ok (coef (r + 2 * i)) (coef (r + 2 * i + 1)) (coef_range rnd Hrnd _) (coef_range rnd Hrnd _)) as (j & Hj & -> & B).
    cbn [bind]. rewrite !wr_ok by lia. cbn [bind]. eexists. split; [reflexivity|]. split; [lia|]. rewrite !aset_len.
    split; [exact La1|]. split; [exact Lb1|]. intros k Hk. destruct (Z.eq_dec k i) as [->|].
    + rewrite !at_aset_same by lia. split; [reflexivity|]. exists j. auto.
    + rewrite !at_aset_other by lia. apply V. lia.
  - exists a', b'. auto.
Qed.

(** mul_reduce_array for separate arrays *)
Lemma mul_h_ends (E : err -> Prop) h c a b n : 0 <= n < 4294967296 -> a <> c -> b <> c ->
  n <= zlen (h c) -> n <= zlen (h a) -> n <= zlen (h b) ->
  (forall i, 0 <= i < n -> - 2 ^ 63 <= at_ (h a) i * at_ (h b) i < 2 ^ 63) ->
  (forall i, 0 <= i < n -> at_ (h a) i * at_ (h b) i < lo43 \/ hi43 < at_ (h a) i * at_ (h b) i -> E AssertFail) ->
  (forall i, 0 <= i < n -> 2 ^ 43 <= at_ (h a) i * at_ (h b) i <= hi43 -> E SignedOverflow) ->
  ends E (mul_reduce_array_h h c n a b) (fun h' => zlen (h' c) = zlen (h c) /\ (forall p, p <> c -> h' p = h p)
    /\ forall i, 0 <= i < n -> at_ (h' c) i = redz (at_ (h a) i * at_ (h b) i) /\ lo43 <= at_ (h a) i * at_ (h b) i < 2 ^ 43).
Proof.
  intros Hn Hac Hbc Lc La Lb Hz HA HS. unfold mul_reduce_array_h.
  match goal with |- context [cfor (fuel n) 0 _ _ ?B h] =>
    assert (L := loop_ends E (fun m h' => zlen (h' c) = zlen (h c) /\ (forall p, p <> c -> h' p = h p)
    /\ forall i, 0 <= i < m -> at_ (h' c) i = redz (at_ (h a) i * at_ (h b) i) /\ lo43 <= at_ (h a) i * at_ (h b) i < 2 ^ 43) n B h Hn) end.
  apply L.
  - split; [reflexivity|]. split; [reflexivity|]. intros; lia.
  - intros i g Hi (Lg & Fg & Vg). rewrite (Fg a Hac), (Fg b Hbc). rewrite !rd_ok by lia. cbn [bind].
    eapply ends_bind; [apply mul_red_ends; [apply Hz, Hi|apply HA, Hi|apply HS, Hi]|].
    intros v [Rv ->]. rewrite wr_ok by lia. cbn [bind ends]. rewrite hset_same, aset_len. split; [exact Lg|]. split.
    + intros p Hp. rewrite hset_other by exact Hp. apply Fg, Hp.
    + intros j Hj. destruct (Z.eq_dec j i) as [->|]; [rewrite at_aset_same by lia; auto|].
      rewrite at_aset_other by lia. apply Vg. lia.
Qed.

(** No product drawn is between 2^43 and the documented bound *)
Definition clear_of_window : Prop := forall k l j, 0 <= j <= 31 -> ~ window (coef k * (coef l / 2 ^ j)).

Lemma testmul_ends (E : err -> Prop) n r : 0 < n < 2 ^ 32 -> n mod 16 = 0 -> sized stk n ->
  E SignedOverflow \/ clear_of_window ->
  ends E (test_mul_reduce_array rnd stk wide n r) (fun r' => r' = r + 20000 * n).
Proof.
  intros Hn H16 HS HW. assert (Hn' : 0 <= n < 4294967296) by lia. unfold test_mul_reduce_array.
  match goal with |- context [loop 10000 ?B ?s0] =>
    assert (L := loop_ends E (fun m (s : heap * Z) => let '(h, r') := s in r' = r + 2 * n * m /\
      zlen (h 0) = n /\ zlen (h 1) = n /\ zlen (h 2) = n /\ zlen (h 3) = n) 10000 B s0 ltac:(lia)) end.
  eapply ends_bind; [apply L|].
  - split; [lia|]. repeat split; apply HS.
  - intros j (h & r') Hj (-> & L0 & L1 & L2 & L3).
    destruct (draws_ok n (h 1) (h 2) (r + 2 * n * j) Hn' L1 L2) as (b & c & -> & Lb & Lc & V). cbn [bind]. cbv zeta.
    set (g := hset (hset h 1 b) 2 c).
    assert (G0 : g 0 = h 0) by (unfold g; rewrite !hset_other by lia; reflexivity).
    assert (G1 : g 1 = b) by (unfold g; rewrite hset_other by lia; apply hset_same).
    assert (G2 : g 2 = c) by (unfold g; apply hset_same).
    assert (G3 : g 3 = h 3) by (unfold g; rewrite !hset_other by lia; reflexivity).
    destruct (mul_reduce_array_asm_h_spec g 0 n 1 2 (m16 n Hn H16)) as (g1 & -> & (Lx & Vx) & F1); [rewrite ?G0, ?G1, ?G2; lia..|].
    cbn [bind]. rewrite G0, G1, G2 in *.
    assert (E1 : g1 1 = b) by (rewrite F1 by lia; exact G1).
    assert (E2 : g1 2 = c) by (rewrite F1 by lia; exact G2).
    assert (E3 : g1 3 = h 3) by (rewrite F1 by lia; exact G3).
    eapply ends_bind; [apply (mul_h_ends E g1 3 1 2 n Hn' ltac:(lia) ltac:(lia)); rewrite ?E1, ?E2, ?E3|].
    + lia.
    + lia.
    + lia.
    + intros i Hi. destruct (V i Hi) as (-> & k & Hk & -> & B). unfold lo43, hi43 in B. change (2 ^ 63) with 9223372036854775808. lia.
    + intros i Hi H. destruct (V i Hi) as (_ & k & Hk & _ & B). lia.
    + intros i Hi H. destruct (V i Hi) as (Ea & k & Hk & Eb & B). destruct HW as [W|W]; [exact W|].
      exfalso. rewrite Ea, Eb in H. exact (W _ _ k Hk H).
    + rewrite E1, E2, E3. intros g2 (Ly & F2 & Vy). rewrite (F2 0) by lia.
      rewrite equal_arrays_ok; [|exact Hn'|lia|lia|].
      * cbn [expect bind ends]. rewrite (F2 0), (F2 1), (F2 2), E1, E2 by lia. repeat split; lia.
      * intros i Hi. rewrite Vx by lia. replace (i <? n) with true by lia. destruct (Vy i Hi) as [-> HB].
        apply redz_i32. exact HB.
  - intros (h & r') (-> & _). cbn [ends]. lia.
Qed.

(** The generator of arrays and scalars *)
Lemma scalar_draws_ok n a r : 0 <= n < 4294967296 -> zlen a = n ->
  exists b x, random_array_for_scalar_mul rnd wide a n r = Ok (b, x, r + n + 1) /\ holds b n (fun i => coef (r + i))
    /\ (exists j, 0 <= j <= 31 /\ x = coef (r + n) / 2 ^ j)
    /\ (0 <= coef (r + n) -> forall i, 0 <= i < n -> lo43 <= coef (r + i) * x <= hi43)
    /\ (coef (r + n) < 0 -> (exists i, 0 <= i < n /\ coef (r + i) <= 0) -> (exists i, 0 <= i < n /\ 0 <= coef (r + i)) ->
        x = coef (r + n)).
Proof.
  intros Hn La. unfold random_array_for_scalar_mul.
  match goal with |- context [loop n ?B ?s0] =>
    destruct (loop_ok (fun m (s : list Z * Z * Z * Z) => let '(b, mn, mx, r') := s in r' = r + m /\ zlen b = n
      /\ -2147483648 <= mn <= 2147483647 /\ -2147483648 <= mx <= 2147483647
      /\ forall i, 0 <= i < m -> at_ b i = coef (r + i) /\ mn <= coef (r + i) <= mx) n B s0 Hn)
      as ((((b & mn) & mx) & r') & E & -> & Lb & Hmn & Hmx & V) end.
  - unfold INT32_MAX, INT32_MIN. split; [lia|]. split; [exact La|]. split; [lia|]. split; [lia|]. intros; lia.
  - intros i (((b & mn) & mx) & r') Hi (-> & Lb & Hmn & Hmx & V). rewrite (coef_ok rnd Hrnd). cbn [bind]. cbv zeta.
    rewrite wr_ok by lia. cbn [bind]. eexists. split; [reflexivity|]. split; [lia|].
    split; [rewrite aset_len; exact Lb|]. assert (R := coef_range rnd Hrnd (r + i)).
    destruct (Z.ltb_spec (coef (r + i)) mn), (Z.ltb_spec mx (coef (r + i))).
    all: split; [lia|]; split; [lia|]; intros k Hk; destruct (Z.eq_dec k i) as [->|];
      [rewrite at_aset_same by lia; lia|rewrite at_aset_other by lia; destruct (V k ltac:(lia)); lia].
  - rewrite E. cbn [bind]. rewrite (coef_ok rnd Hrnd). cbn [bind]. set (y := coef (r + n)).
    assert (Hy := coef_range rnd Hrnd (r + n) : -1073741824 <= y <= 1073741823).
    match goal with |- context [cwhile _ ?C ?B _] => set (c := C); set (body := B) end.
    assert (G : forall f j, 0 <= j <= 31 -> 31 - j < Z.of_nat f -> exists j', 0 <= j' <= 31
      /\ cwhile f c body (y / 2 ^ j) = Ok (y / 2 ^ j') /\ c (y / 2 ^ j') = false).
    { induction f; intros j Hj Hf; [lia|]. cbn [cwhile]. destruct (c (y / 2 ^ j)) eqn:EC.
      - assert (D : j <> 31).
        { intros ->. revert EC. unfold c. destruct (half_last y Hy) as [-> | ->].
          - rewrite !Z.mul_0_l. cbn. discriminate.
          - replace (-1 * mn <? -8796042698752) with false by lia. replace (8796093026303 <? -1 * mx) with false by lia. discriminate. }
        unfold body at 1. cbn [bind]. rewrite half_step by lia. apply IHf; lia.
      - exists j. auto. }
    destruct (G (fuel 32) 0 ltac:(lia) ltac:(unfold fuel; lia)) as (j & Hj & E1 & B). clear G.
    change (2 ^ 0) with 1 in E1. rewrite Z.div_1_r in E1.
    exists b, (y / 2 ^ j). rewrite E1. cbn [bind]. split; [reflexivity|].
    split; [split; [exact Lb|intros i Hi; apply V, Hi]|]. split; [exists j; auto|]. split.
    + intros H0 i Hi. destruct (V i Hi) as [_ [V1 V2]]. unfold c in B. apply orb_false_iff in B. destruct B as [B1 B2].
      apply Z.ltb_ge in B1. apply Z.ltb_ge in B2. unfold lo43, hi43.
      assert (0 <= y / 2 ^ j) by (apply Z.div_pos; [lia|apply Z.pow_pos_nonneg; lia]). nia.
    + intros Hneg (i & Hi & Ci) (k & Hk & Ck). destruct (V i Hi) as [_ [V1 _]]. destruct (V k Hk) as [_ [_ V2]].
      assert (E2 : cwhile (fuel 32) c body y = Ok y).
      { change (fuel 32) with (S (Z.to_nat 32)). cbn [cwhile]. replace (c y) with false; [reflexivity|]. unfold c.
        replace (y * mn <? -8796042698752) with false by nia. replace (8796093026303 <? y * mx) with false by nia. reflexivity. }
      rewrite E2 in E1. injection E1 as <-. reflexivity.
Qed.

Lemma scalar_step_ends (E : err -> Prop) n a c : 0 < n < 2 ^ 32 -> n mod 16 = 0 -> zlen a = n ->
  all_in (-1073741824) 1073741823 a -> -1073741824 <= c <= 1073741823 ->
  (forall i, 0 <= i < n -> at_ a i * c < lo43 \/ hi43 < at_ a i * c -> E AssertFail) ->
  (forall i, 0 <= i < n -> window (at_ a i * c) -> E SignedOverflow) ->
  ends E (scalar_mul_reduce_array a n c) (fun y => zlen y = n /\ scalar_mul_reduce_array_asm a n c = Ok y
    /\ forall i, 0 <= i < n -> lo43 <= at_ a i * c < 2 ^ 43).
Proof.
  intros Hn H16 La Ha Hc HA HS. assert (Hn' : 0 <= n < 4294967296) by lia.
  destruct (scalar_mul_reduce_array_asm_spec a n c (m16 n Hn H16) ltac:(lia)) as (x & Ex & Lx & Vx); [unfold AvxArrays.w32; lia|].
  change (scalar_mul_reduce_array a n c) with (loop n (fun i a => do x <- rd a i; do v <- mul_red x c; wr a i v) a).
  eapply ends_weaken.
  - apply (mul_loop_ends E (fun _ => c) _ a n n Hn' La).
    + intros i Hi. assert (B := all_in_at _ _ _ i Ha ltac:(lia)). change (2 ^ 63) with 9223372036854775808. nia.
    + exact HA.
    + exact HS.
    + intros i d Hi Ld. rewrite rd_ok by lia. reflexivity.
    + reflexivity.
  - intros y (Ly & Vy). split; [exact Ly|]. split; [|intros i Hi; apply Vy, Hi].
    rewrite Ex. f_equal. apply list_ext; [lia|]. intros i Hi. rewrite Vx by lia.
    replace (i <? n) with true by lia. destruct (Vy i ltac:(lia)) as [-> HB]. apply redz_i32. exact HB.
Qed.

Lemma testscalar_ends (E : err -> Prop) n r : 0 < n < 2 ^ 32 -> n mod 16 = 0 -> sized stk n ->
  E AssertFail \/ (forall j, 0 <= j < 10000 -> 0 <= coef (r + (n + 1) * j + n)) ->
  E SignedOverflow \/ clear_of_window ->
  ends E (test_scalar_mul_reduce_array rnd stk wide n r) (fun r' => r' = r + 10000 * (n + 1)).
Proof.
  intros Hn H16 HS HA HW. assert (Hn' : 0 <= n < 4294967296) by lia. unfold test_scalar_mul_reduce_array.
  match goal with |- context [loop 10000 ?B ?s0] =>
    assert (L := loop_ends E (fun m (s : list Z * list Z * list Z * Z) => let '(a, b, d, r') := s in r' = r + (n + 1) * m /\
      zlen a = n /\ zlen b = n /\ zlen d = n) 10000 B s0 ltac:(lia)) end.
  eapply ends_bind; [apply L|].
  - split; [lia|]. repeat split; apply HS.
  - intros j (((a & b) & d) & r') Hj (-> & La & Lb & Ld).
    destruct (scalar_draws_ok n a (r + (n + 1) * j) Hn' La) as (a1 & x & -> & Ha1 & (k & Hk & Ex) & Hpos & _). cbn [bind].
    rewrite !(copy_array_ok rnd Hrnd) by (apply Ha1 || assumption). cbn [bind].
    assert (Rx : -1073741824 <= x <= 1073741823) by (rewrite Ex; apply half_range; [lia|apply (coef_range rnd Hrnd)]).
    destruct Ha1 as [La1 Va1].
    assert (S := scalar_step_ends E n a1 x Hn H16 La1).
    destruct (scalar_mul_reduce_array_asm_spec a1 n x (m16 n Hn H16) ltac:(lia) ltac:(unfold AvxArrays.w32; lia)) as (u & Eu & _).
    rewrite Eu in *. cbn [bind]. eapply ends_bind; [apply S; clear S|].
    + apply all_in_of. intros i Hi. rewrite Va1 by lia. apply (coef_range rnd Hrnd).
    + exact Rx.
    + intros i Hi H. destruct HA as [W|W]; [exact W|]. specialize (Hpos (W j Hj) i Hi). rewrite Va1 in H by lia. lia.
    + intros i Hi H. destruct HW as [W|W]; [exact W|]. exfalso. rewrite Va1, Ex in H by lia. exact (W _ _ k Hk H).
    + intros y (Ly & Euy & _). injection Euy as ->.
      rewrite equal_arrays_ok; [|exact Hn'|lia|lia|reflexivity].
      cbn [expect bind ends]. repeat split; lia.
  - intros (((a & b) & d) & r') (-> & _). cbn [ends]. lia.
Qed.

(** When the scalar is negative and the array has entries of both signs, the test stops
    as soon as a product is out of bounds *)
Lemma testscalar_stops n r i0 i1 i2 : 0 < n < 2 ^ 32 -> n mod 16 = 0 -> sized stk n ->
  coef (r + n) < 0 -> 0 <= i0 < n -> coef (r + i0) <= 0 -> 0 <= i1 < n -> 0 <= coef (r + i1) ->
  0 <= i2 < n -> coef (r + i2) * coef (r + n) < lo43 \/ hi43 < coef (r + i2) * coef (r + n) ->
  test_scalar_mul_reduce_array rnd stk wide n r = Err AssertFail \/ test_scalar_mul_reduce_array rnd stk wide n r = Err SignedOverflow.
Proof.
  intros Hn H16 HS Hneg Hi0 C0 Hi1 C1 Hi2 C2. assert (Hn' : 0 <= n < 4294967296) by lia.
  set (E := fun e => e = AssertFail \/ e = SignedOverflow).
  cut (ends E (test_scalar_mul_reduce_array rnd stk wide n r) (fun _ => False)).
  { destruct (test_scalar_mul_reduce_array rnd stk wide n r); cbn [ends]; [tauto|]. intros [-> | ->]; auto. }
  unfold test_scalar_mul_reduce_array.
  match goal with |- context [loop 10000 ?B ?s0] =>
    assert (L := loop_ends E (fun m (s : list Z * list Z * list Z * Z) => m = 0 /\ s = s0) 10000 B s0 ltac:(lia)) end.
  eapply ends_bind; [apply L|].
  - auto.
  - intros j s Hj [-> ->]. cbv beta iota.
    destruct (scalar_draws_ok n (stk n 0) r Hn' (HS 0)) as (a1 & x & -> & Ha1 & _ & _ & Hx). cbn [bind].
    rewrite !(copy_array_ok rnd Hrnd) by (apply Ha1 || apply HS || assumption). cbn [bind].
    specialize (Hx Hneg (ex_intro _ i0 (conj Hi0 C0)) (ex_intro _ i1 (conj Hi1 C1))). subst x.
    destruct Ha1 as [La1 Va1].
    destruct (scalar_mul_reduce_array_asm_spec a1 n (coef (r + n)) (m16 n Hn H16) ltac:(lia)) as (u & Eu & _).
    { assert (R := coef_range rnd Hrnd (r + n)). unfold AvxArrays.w32; lia. }
    rewrite Eu. cbn [bind]. eapply ends_bind.
    + apply (scalar_step_ends E n a1 (coef (r + n)) Hn H16 La1).
      * apply all_in_of. intros i Hi. rewrite Va1 by lia. apply (coef_range rnd Hrnd).
      * apply (coef_range rnd Hrnd).
      * intros. left. reflexivity.
      * intros. right. reflexivity.
    + intros y (_ & _ & V). exfalso. specialize (V i2 Hi2). rewrite Va1 in V by lia.
      unfold lo43, hi43 in *. change (2 ^ 43) with 8796093022208 in V. lia.
  - intros s [H _]. discriminate.
Qed.
End Random.
