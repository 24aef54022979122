(** The checks of the test programs succeed when the functions under test are right. *)

From Coq Require Import ZArith List Bool Lia Setoid Morphisms Sorted Permutation.
From Verif Require Import CSem Spec Loops ModQ Conv HeapElem ModelGen ModelSort SortFinal
  ProdFinal ModelTests RoundTrip ShuffleFinal.
Import Spec.
Import ListNotations.
Open Scope Z_scope.

(** ** Loops *)

Lemma loop_ok {S} (J : Z -> S -> Prop) n body (st : S) : 0 <= n < 4294967296 -> J 0 st ->
  (forall i st, 0 <= i < n -> J i st -> exists st', body i st = Ok st' /\ J (i + 1) st') ->
  exists st', loop n body st = Ok st' /\ J n st'.
Proof.
  intros Hn H0 Hb. unfold loop.
  apply (cfor_count J n (fun c => c)).
  - lia.
  - intros c Hc. apply Z.ltb_lt. lia.
  - apply Z.ltb_ge. lia.
  - intros c Hc. apply u32_small. lia.
  - exact Hb.
  - reflexivity.
  - unfold fuel. lia.
  - exact H0.
Qed.

Lemma scan_ok {S} (J : Z -> S -> Prop) n step (st : S) : 0 <= n < 4294967296 -> J 0 st ->
  (forall i st, 0 <= i < n -> J i st -> exists st', step i st = Ok (Some st') /\ J (i + 1) st') ->
  scan (fuel n) 0 n step st = Ok true.
Proof.
  intros Hn H0 Hb.
  assert (G : forall f i st, 0 <= i <= n -> (Z.to_nat (n - i) < f)%nat -> J i st -> scan f i n step st = Ok true).
  { clear st H0. induction f; intros i st Hi Hf HJ; [lia|]. cbn [scan].
    destruct (Z.ltb_spec i n); [|reflexivity].
    destruct (Hb i st ltac:(lia) HJ) as (st' & -> & HJ'). cbn [bind].
    rewrite u32_small by lia. apply IHf; [lia|lia|exact HJ']. }
  apply (G _ 0 st); [lia|unfold fuel; lia|exact H0].
Qed.

(** A loop that writes [v i] at [i] *)
Lemma fill_ok n a (v : Z -> Z) (body : Z -> list Z -> res (list Z)) :
  0 <= n < 4294967296 -> zlen a = n ->
  (forall i b, 0 <= i < n -> zlen b = n -> body i b = wr b i (v i)) ->
  exists r, loop n body a = Ok r /\ zlen r = n /\ forall i, 0 <= i < n -> at_ r i = v i.
Proof.
  intros Hn HL Hb.
  destruct (loop_ok (fun c b => zlen b = n /\ forall i, 0 <= i < c -> at_ b i = v i) n body a) as (r & E & L & V).
  - exact Hn.
  - split; [exact HL|]. intros; lia.
  - intros i b Hi [Lb Vb]. rewrite Hb by assumption. rewrite wr_ok by lia.
    eexists. split; [reflexivity|]. split; [rewrite aset_len; exact Lb|].
    intros m Hm. destruct (Z.eq_dec m i) as [->|]; [apply at_aset_same; lia|].
    rewrite at_aset_other by lia. apply Vb. lia.
  - eauto.
Qed.

Lemma equal_arrays_ok a b n : 0 <= n < 4294967296 -> zlen a = n -> zlen b = n ->
  (forall i, 0 <= i < n -> at_ a i = at_ b i) -> equal_arrays a b n = Ok true.
Proof.
  intros Hn La Lb H. unfold equal_arrays. apply (scan_ok (fun _ _ => True)); [exact Hn|exact I|].
  intros i st Hi _. rewrite !rd_ok by lia. cbn [bind]. rewrite H by exact Hi. rewrite Z.eqb_refl. eauto.
Qed.

Lemma simple_poly_ok a m n : 0 <= n < 4294967296 -> zlen a = n -> 0 <= m < n ->
  exists r, simple_poly a m n = Ok r /\ zlen r = n
    /\ forall i, 0 <= i < n -> at_ r i = if i =? m then 1 else 0.
Proof.
  intros Hn HL Hm. unfold simple_poly. replace (m <? n) with true by (symmetry; apply Z.ltb_lt; lia).
  cbn [cassert bind].
  destruct (fill_ok n a (fun _ => 0) _ Hn HL (fun i b _ _ => eq_refl)) as (r & E & L & V).
  rewrite E. cbn [bind]. rewrite wr_ok by lia. eexists. split; [reflexivity|].
  split; [rewrite aset_len; exact L|]. intros i Hi. destruct (Z.eqb_spec i m) as [->|].
  - apply at_aset_same. lia.
  - rewrite at_aset_other by lia. apply V, Hi.
Qed.

Lemma simple_range r n m : zlen r = n -> (forall i, 0 <= i < n -> at_ r i = if i =? m then 1 else 0) ->
  all_in 0 (Q - 1) r.
Proof.
  intros L H. apply all_in_of. intros i Hi. rewrite H by lia. unfold Q. destruct (i =? m); lia.
Qed.

(** ** Powers *)

Lemma mulmod x y : 0 <= x < 12289 -> 0 <= y < 12289 ->
  (do z <- mul32 x y; rem32 z ModelTests.Q) = Ok ((x * y) mod 12289).
Proof.
  intros Hx Hy. unfold mul32. rewrite i32_ok by nia. cbn [bind]. unfold rem32.
  change ModelTests.Q with 12289. cbn [Z.eqb].
  change (12289 =? 0) with false. cbv iota.
  rewrite Z.rem_mod_nonneg by nia. rewrite andb_false_r. reflexivity.
Qed.

Definition power_body : Z * Z * Z -> res (Z * Z * Z) := fun '(x, k, y) =>
    do y <- (if negb (Z.land k 1 =? 0) then do z <- mul32 y x; rem32 z ModelTests.Q else Ok y);
    let k := Z.shiftr k 1 in
    do z <- mul32 x x;
    do x <- rem32 z ModelTests.Q;
    Ok (x, k, y).

Lemma power_body_ok x m y : 0 <= x < 12289 -> 0 <= y < 12289 -> 0 <= m ->
  power_body (x, m, y) = Ok ((x * x) mod 12289, m / 2, if m mod 2 =? 0 then y else (y * x) mod 12289).
Proof.
  intros Hx Hy Hm. unfold power_body. rewrite Z.shiftr_div_pow2 by lia. change (2 ^ 1) with 2.
  replace (Z.land m 1) with (m mod 2) by (symmetry; apply (Z.land_ones m 1); lia).
  assert (Ey : (if negb (m mod 2 =? 0) then do z <- mul32 y x; rem32 z ModelTests.Q else Ok y)
    = Ok (if m mod 2 =? 0 then y else (y * x) mod 12289)).
  { destruct (m mod 2 =? 0); cbn [negb]; [reflexivity|]. apply mulmod; lia. }
  rewrite Ey. cbn [bind]. assert (Ex := mulmod x x Hx Hx).
  destruct (mul32 x x) as [z|] eqn:Em; cbn [bind] in Ex |- *; [|discriminate].
  rewrite Ex. reflexivity.
Qed.

Lemma power_step f : forall x m y, 0 <= x < 12289 -> 0 <= y < 12289 -> 0 <= m < 2 ^ Z.of_nat f ->
  exists x', cwhile (S f) (fun '(_, k, _) => negb (k =? 0)) power_body (x, m, y) = Ok (x', 0, (y * x ^ m) mod 12289).
Proof.
  induction f; intros x m y Hx Hy Hm.
  - cbn in Hm. replace m with 0 by lia. exists x. cbn. rewrite Z.mul_1_r. rewrite Z.mod_small by lia. reflexivity.
  - rewrite Nat2Z.inj_succ, Z.pow_succ_r in Hm by lia.
    remember (S f) as g eqn:Eg. cbn [cwhile]. subst g.
    destruct (Z.eqb_spec m 0) as [->|Hm0].
    + exists x. cbn. rewrite Z.mul_1_r. rewrite Z.mod_small by lia. reflexivity.
    + cbn [negb]. rewrite power_body_ok by lia. cbn [bind].
      assert (HD := Z.div_mod m 2 ltac:(lia)). assert (HB := Z.mod_pos_bound m 2 ltac:(lia)).
      destruct (IHf ((x * x) mod 12289) (m / 2) (if m mod 2 =? 0 then y else (y * x) mod 12289)) as (x' & E).
      * apply Z.mod_pos_bound. lia.
      * destruct (m mod 2 =? 0); [lia|]. apply Z.mod_pos_bound; lia.
      * lia.
      * rewrite E. exists x'. f_equal. f_equal.
        change (eqQ ((if m mod 2 =? 0 then y else (y * x) mod 12289) * ((x * x) mod 12289) ^ (m / 2)) (y * x ^ m)).
        rewrite (eqQ_modn (x * x)).
        replace (x * x) with (x ^ 2) by ring. rewrite <- Z.pow_mul_r by lia.
        destruct (Z.eqb_spec (m mod 2) 0) as [e|e].
        -- replace (2 * (m / 2)) with m by lia. reflexivity.
        -- rewrite (eqQ_modn (y * x)). replace m with (2 * (m / 2) + 1) at 2 by lia.
           rewrite Z.pow_add_r by lia. rewrite Z.pow_1_r. qring.
Qed.

Lemma power_ok x m : 0 <= x < 12289 -> 0 <= m < 2 ^ 32 -> power x m = Ok ((x ^ m) mod 12289).
Proof.
  intros Hx Hm. unfold power. destruct (power_step 32 x m 1 Hx ltac:(lia) Hm) as (x' & E).
  change (fuel 32) with 33%nat. fold power_body. rewrite E. cbn [bind]. rewrite Z.mul_1_l. reflexivity.
Qed.

(** ** The checks *)

Lemma check_ntt_simple_ok a n m w : 0 <= n < 4294967296 -> zlen a = n -> 0 <= m < n -> 0 <= w < 12289 ->
  (forall i, 0 <= i < n -> at_ a i = (w ^ (m * i)) mod 12289) -> check_ntt_simple a n m w = Ok true.
Proof.
  intros Hn La Hm Hw H. unfold check_ntt_simple. rewrite power_ok; [|exact Hw|change (2 ^ 32) with 4294967296; lia].
  cbn [bind]. apply (scan_ok (fun i x => x = (w ^ (m * i)) mod 12289)).
  - exact Hn.
  - rewrite Z.mul_0_r. reflexivity.
  - intros i x Hi ->. rewrite rd_ok by lia. cbn [bind]. rewrite H by exact Hi. rewrite Z.eqb_refl.
    assert (Hx := Z.mod_pos_bound (w ^ (m * i)) 12289 ltac:(lia)).
    assert (Hy := Z.mod_pos_bound (w ^ m) 12289 ltac:(lia)).
    assert (E := mulmod _ _ Hx Hy).
    destruct (mul32 ((w ^ (m * i)) mod 12289) ((w ^ m) mod 12289)) as [z|]; cbn [bind] in *; [|discriminate].
    rewrite E. cbn [bind]. eexists. split; [reflexivity|].
    rewrite <- Zmult_mod. rewrite <- Z.pow_add_r by nia. f_equal. f_equal. ring.
Qed.

Lemma check_ntt_ntt_simple_ok a n m : 0 <= n < 12289 -> zlen a = n -> 0 <= m < n ->
  (forall i, 0 <= i < n -> at_ a i = if i =? (if m =? 0 then 0 else n - m) then n else 0) ->
  check_ntt_ntt_simple a n m = Ok true.
Proof.
  intros Hn La Hm H. unfold check_ntt_ntt_simple. replace (m <? n) with true by (symmetry; apply Z.ltb_lt; lia).
  cbn [cassert bind]. rewrite (u32_small (n - m)) by lia.
  apply (scan_ok (fun _ _ => True)); [lia|exact I|].
  intros i st Hi _. rewrite rd_ok by lia. cbn [bind]. rewrite H by exact Hi.
  destruct (i =? (if m =? 0 then 0 else n - m)); cbn [andb orb negb].
  - rewrite u32_small by lia. rewrite Z.eqb_refl. cbn. eauto.
  - cbn. eauto.
Qed.

Lemma equal_simple_poly_ok c n m : 0 <= n < 12289 -> zlen c = n -> 0 <= m < 2 * n ->
  (forall i, 0 <= i < n -> at_ c i = if n <=? m then (if i =? m - n then 12288 else 0) else (if i =? m then 1 else 0)) ->
  equal_simple_poly c n m = Ok true.
Proof.
  intros Hn Lc Hm H. unfold equal_simple_poly. rewrite (u32_small (2 * n)) by lia.
  replace (m <? 2 * n) with true by (symmetry; apply Z.ltb_lt; lia). cbn [cassert bind].
  destruct (Z.leb_spec n m).
  - rewrite u32_small by lia. apply (scan_ok (fun _ _ => True)); [lia|exact I|].
    intros i st Hi _. rewrite rd_ok by lia. cbn [bind]. rewrite H by exact Hi.
    destruct (i =? m - n); cbn; eauto.
  - apply (scan_ok (fun _ _ => True)); [lia|exact I|].
    intros i st Hi _. rewrite rd_ok by lia. cbn [bind]. rewrite H by exact Hi.
    destruct (i =? m); cbn; eauto.
Qed.

(** ** Transforms of X^m *)

Lemma ntt_monomial n w m x j : 0 <= m < n ->
  (forall i, 0 <= i < n -> eqQ (x i) (if i =? m then 1 else 0)) -> eqQ (NTT n w x j) (w ^ (m * j)).
Proof.
  intros Hm H. unfold NTT. etransitivity.
  - apply (Sum_single n m _ Hm). intros i Hi Hne. rewrite H by exact Hi.
    destruct (Z.eqb_spec i m); [contradiction|]. reflexivity.
  - rewrite H by exact Hm. rewrite Z.eqb_refl. rewrite Z.mul_1_l. reflexivity.
Qed.

Lemma ntt_ntt_monomial k w m x j : 1 <= k -> eqQ (w ^ (2 ^ (k - 1))) (-1) -> 0 <= m < 2 ^ k -> 0 <= j < 2 ^ k ->
  (forall i, 0 <= i < 2 ^ k -> eqQ (x i) (w ^ (m * i))) ->
  eqQ (NTT (2 ^ k) w x j) (if j =? (if m =? 0 then 0 else 2 ^ k - m) then 2 ^ k else 0).
Proof.
  intros Hk Hw Hm Hj H.
  assert (Hwn : eqQ (w ^ (2 ^ k)) 1).
  { replace k with (Z.succ (k - 1)) by lia. rewrite Z.pow_succ_r by lia. rewrite Z.mul_comm.
    rewrite Z.pow_mul_r by (try apply Z.pow_nonneg; lia). rewrite Hw. reflexivity. }
  assert (G : eqQ (NTT (2 ^ k) w x j) (Sum (2 ^ k) (fun i => w ^ (i * (m + j))))).
  { unfold NTT. apply Sum_extQ. intros i Hi. rewrite H by exact Hi.
    rewrite <- Z.pow_add_r by nia. replace (m * i + i * j) with (i * (m + j)) by ring. reflexivity. }
  assert (All : m + j = 0 \/ m + j = 2 ^ k -> eqQ (NTT (2 ^ k) w x j) (2 ^ k)).
  { intros He. rewrite G. rewrite (Sum_extQ _ _ (fun _ => 1)).
    - rewrite Sum_const by lia. rewrite Z.mul_1_r. reflexivity.
    - intros i Hi. destruct He as [->| ->].
      + rewrite Z.mul_0_r. reflexivity.
      + rewrite Z.mul_comm. rewrite Z.pow_mul_r by lia. rewrite Hwn. rewrite Z.pow_1_l by lia. reflexivity. }
  assert (None : forall d, 0 < d < 2 ^ k -> (m + j = d \/ m + j = d + 2 ^ k) -> eqQ (NTT (2 ^ k) w x j) 0).
  { intros d Hd He. rewrite G. rewrite <- (geom_zero k ltac:(lia) w d (fun _ => Hw) Hd).
    apply Sum_extQ. intros i Hi. destruct He as [->| ->]; [reflexivity|].
    replace (i * (d + 2 ^ k)) with (i * d + 2 ^ k * i) by ring. rewrite Z.pow_add_r by nia.
    rewrite (Z.pow_mul_r w (2 ^ k)) by lia. rewrite Hwn. rewrite Z.pow_1_l by lia. qring. }
  destruct (Z.eqb_spec m 0) as [->|Hm0].
  - destruct (Z.eqb_spec j 0) as [->|Hj0].
    + apply All. lia.
    + apply (None j); lia.
  - destruct (Z.eqb_spec j (2 ^ k - m)) as [->|Hj0].
    + apply All. lia.
    + destruct (Z.ltb_spec (m + j) (2 ^ k)).
      * apply (None (m + j)); lia.
      * apply (None (m + j - 2 ^ k)); lia.
Qed.

(** The product of X^i and X^m modulo X^n + 1 *)
Lemma negacyclic_monomials n i m a b t : 0 <= i < n -> 0 <= m < n -> 0 <= t < n ->
  (forall s, 0 <= s < n -> a s = if s =? i then 1 else 0) ->
  (forall s, 0 <= s < n -> b s = if s =? m then 1 else 0) ->
  eqQ (negacyclic n a b t) (if n <=? i + m then (if t =? i + m - n then -1 else 0) else (if t =? i + m then 1 else 0)).
Proof.
  intros Hi Hm Ht Ha Hb. unfold negacyclic. etransitivity.
  - apply (Sum_single n i _ Hi). intros s Hs Hne. rewrite Ha by exact Hs.
    destruct (Z.eqb_spec s i); [contradiction|]. rewrite Z.mul_0_l. destruct (s <=? t); reflexivity.
  - cbv beta. rewrite Ha by exact Hi. rewrite Z.eqb_refl.
    destruct (Z.leb_spec i t); rewrite Hb by lia;
      destruct (Z.leb_spec n (i + m));
      repeat match goal with |- context [?x =? ?y] => destruct (Z.eqb_spec x y) end; try lia; reflexivity.
Qed.
