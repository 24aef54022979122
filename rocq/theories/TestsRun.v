(** The test programs: every test succeeds when the functions under test are right. *)

From Coq Require Import ZArith List Bool Lia Setoid Morphisms Sorted Permutation.
From Verif Require Import CSem Spec Loops ModQ Conv HeapElem ModelGen ModelNtt ModelSort SortFinal
  ProdFinal ModelTests RoundTrip TestsElem.
Import Spec.
Import ListNotations.
Open Scope Z_scope.

Lemma sorted_at l : StronglySorted Z.le l -> forall i j, 0 <= i <= j -> j < zlen l -> at_ l i <= at_ l j.
Proof.
  unfold at_, zlen. induction 1 as [|x l HS IH HF]; intros i j Hij Hj.
  - cbn in Hj. lia.
  - cbn [length] in Hj.
    destruct (Z.eq_dec i 0) as [->|]; destruct (Z.eq_dec j 0) as [->|]; try lia.
    + change (Z.to_nat 0) with 0%nat. replace (Z.to_nat j) with (S (Z.to_nat (j - 1))) by lia. cbn [nth].
      rewrite Forall_forall in HF. apply HF. apply nth_In. lia.
    + replace (Z.to_nat i) with (S (Z.to_nat (i - 1))) by lia.
      replace (Z.to_nat j) with (S (Z.to_nat (j - 1))) by lia. cbn [nth]. apply IH; lia.
Qed.

Section Run.
Variables (rnd : Z -> Z) (stk : heap) (k : Z) (bt : list (Z * Z)) (np : Z) (V : variant) (X : functions).
Variables (lo hi lo' hi' lop hip inv_n : Z).
Let n := 2 ^ k.

(** A pointwise map with canonical results *)
Definition canon (lo hi s : Z) (M : list Z -> res (list Z)) : Prop :=
  forall a, zlen a = 2 ^ k -> all_in lo hi a ->
  exists r, M a = Ok r /\ zlen r = 2 ^ k /\ forall i, 0 <= i < 2 ^ k -> at_ r i = (s * at_ a i) mod Q.
Definition trans (std2rev : bool) (w : Z) (f : list Z -> res (list Z)) : Prop :=
  if std2rev then s2r k lo hi lo' hi' w (fun _ => 1) (fun _ => 1) f
  else r2s k lo hi lo' hi' w (fun _ => 1) (fun _ => 1) f.
Definition multiplies (f : heap -> Z -> Z -> Z -> res heap) : Prop :=
  forall h c a b, a <> b -> zlen (h a) = n -> zlen (h b) = n -> zlen (h c) = n ->
  all_in 0 (Q - 1) (h a) -> all_in 0 (Q - 1) (h b) ->
  exists h', f h c a b = Ok h' /\ zlen (h' c) = n /\ all_in lop hip (h' c)
    /\ (forall i, 0 <= i < n -> eqQ (at_ (h' c) i) (negacyclic n (at_ (h a)) (at_ (h b)) i)).

Hypothesis Hk : 1 <= k <= 11.
Hypothesis Hstk : forall p, zlen (stk p) = n.
Hypothesis Hrnd : forall i, 0 <= rnd i < 2 ^ 31.
Hypothesis Hshuffle : forall a, zlen a = n -> exists r, shuffle_with_table a bt np = Ok r /\ zlen r = n
  /\ forall i, 0 <= i < n -> at_ r (bitrev k i) = at_ a i.
Hypothesis Hbefore : scales k 0 (Q - 1) lo hi 1 (before V).
Hypothesis Hafter : canon lo' hi' 1 (after V).
Hypothesis Hbf : scales k 0 (Q - 1) lo hi 1 (before_forward V).
Hypothesis Hbetween : scales k lo' hi' lo hi 1 (between V).
Hypothesis Hai : canon lo' hi' inv_n (after_inverse V).
Hypothesis Hap : canon lop hip 1 (after_product V).
Hypothesis Hinv : eqQ (inv_n * 2 ^ k) 1.

Let Hn : 2 <= n <= 2048.
Proof.
  unfold n. change 2 with (2 ^ 1) at 1. change 2048 with (2 ^ 11). split; apply Z.pow_le_mono_r; lia.
Qed.
Let Hn32 : 0 <= n < 4294967296.
Proof. lia. Qed.
Let Hk0 : 0 <= k.
Proof. lia. Qed.

Lemma canon_range l h s M a r : canon l h s M -> zlen r = n -> (forall i, 0 <= i < n -> at_ r i = (s * at_ a i) mod Q) ->
  all_in 0 (Q - 1) r.
Proof.
  intros _ L H. apply all_in_of. intros i Hi. rewrite H by lia.
  assert (HB := Z.mod_pos_bound (s * at_ a i) Q). unfold Q in *. lia.
Qed.

Lemma shuffle_range l h a r : zlen a = n -> zlen r = n -> all_in l h a ->
  (forall i, 0 <= i < n -> at_ r (bitrev k i) = at_ a i) -> all_in l h r.
Proof.
  intros La Lr Ha H. apply all_in_of. intros i Hi. rewrite Lr in Hi.
  assert (HB := bitrev_range k i Hk0).
  rewrite <- (bitrev_invol k i Hk0 Hi). rewrite H by exact HB. apply all_in_at; [exact Ha|]. rewrite La. exact HB.
Qed.

(** ** Polynomials 1, X, X^2, ... *)

Lemma apply_ok f std2rev w a : trans std2rev w f -> zlen a = n -> all_in 0 (Q - 1) a ->
  exists r, apply_ntt bt np V a f std2rev = Ok r /\ zlen r = n /\ all_in 0 (Q - 1) r
    /\ forall i, 0 <= i < n -> at_ r i = NTT n w (at_ a) i mod Q.
Proof.
  intros Hf La Ha.
  destruct (Hbefore a La Ha) as (b & Eb & Lb & Ib & Vb).
  destruct std2rev; unfold trans in Hf; unfold apply_ntt, ntt_bitrev_shuffle; rewrite Eb; cbn [bind].
  - destruct (Hf b Lb Ib) as (x & Ex & Lx & Ix & Vx). rewrite Ex. cbn [bind].
    destruct (Hshuffle x Lx) as (y & Ey & Ly & Vy). rewrite Ey. cbn [bind].
    assert (Iy := shuffle_range _ _ _ _ Lx Ly Ix Vy).
    destruct (Hafter y Ly Iy) as (r & Er & Lr & Vr). exists r. split; [exact Er|]. split; [exact Lr|].
    split; [exact (canon_range _ _ _ _ y r Hafter Lr Vr)|].
    intros i Hi. rewrite Vr by exact Hi. rewrite Z.mul_1_l.
    change (eqQ (at_ y i) (NTT n w (at_ a) i)).
    assert (HB := bitrev_range k i Hk0).
    rewrite <- (bitrev_invol k i Hk0 Hi) at 1. rewrite Vy by exact HB. rewrite Vx by exact Hi.
    rewrite Z.mul_1_l. apply NTT_extQ. intros m Hm. rewrite Z.mul_1_r. rewrite Vb by exact Hm.
    rewrite Z.mul_1_l. reflexivity.
  - destruct (Hshuffle b Lb) as (x & Ex & Lx & Vx). rewrite Ex. cbn [bind].
    assert (Ix := shuffle_range _ _ _ _ Lb Lx Ib Vx).
    destruct (Hf x Lx Ix) as (y & Ey & Ly & Iy & Vy). rewrite Ey. cbn [bind].
    destruct (Hafter y Ly Iy) as (r & Er & Lr & Vr). exists r. split; [exact Er|]. split; [exact Lr|].
    split; [exact (canon_range _ _ _ _ y r Hafter Lr Vr)|].
    intros i Hi. rewrite Vr by exact Hi. rewrite Z.mul_1_l.
    change (eqQ (at_ y i) (NTT n w (at_ a) i)).
    rewrite Vy by exact Hi. rewrite Z.mul_1_l. apply NTT_extQ. intros m Hm. rewrite Z.mul_1_r.
    rewrite Vx by exact Hm. rewrite Vb by exact Hm. rewrite Z.mul_1_l. reflexivity.
Qed.

Lemma test_simple_polys_ok f std2rev w omega : trans std2rev w f -> eqQ omega w -> 0 <= omega < 12289 ->
  eqQ (w ^ (2 ^ (k - 1))) (-1) -> test_simple_polys stk n bt np V f omega std2rev = Ok tt.
Proof.
  intros Hf Ho Hoc Hw. unfold test_simple_polys.
  match goal with |- context [loop n ?B (stk 0)] =>
    destruct (loop_ok (fun _ a => zlen a = n) n B (stk 0)) as (r & E & _) end.
  - exact Hn32.
  - apply Hstk.
  - intros j a Hj La.
    destruct (simple_poly_ok a j n Hn32 La Hj) as (b & Eb & Lb & Vb). rewrite Eb. cbn [bind].
    assert (Ib := simple_range b n j Lb Vb).
    destruct (apply_ok f std2rev w b Hf Lb Ib) as (x & Ex & Lx & Ix & Vx). rewrite Ex. cbn [bind].
    assert (Mx : forall i, 0 <= i < n -> eqQ (at_ x i) (w ^ (j * i))).
    { intros i Hi. rewrite Vx by exact Hi. rewrite eqQ_mod. apply ntt_monomial; [exact Hj|].
      intros m Hm. rewrite Vb by exact Hm. reflexivity. }
    rewrite (check_ntt_simple_ok x n j omega Hn32 Lx Hj Hoc).
    2:{ intros i Hi. assert (HI := all_in_at _ _ _ i Ix ltac:(lia)).
        apply can_eq; [unfold NttElem.can; unfold Q in HI; lia|]. rewrite Mx by exact Hi. rewrite Ho. reflexivity. }
    cbn [bind expect].
    destruct (apply_ok f std2rev w x Hf Lx Ix) as (y & Ey & Ly & Iy & Vy). rewrite Ey. cbn [bind].
    rewrite (check_ntt_ntt_simple_ok y n j ltac:(lia) Ly Hj).
    + cbn [bind expect]. eauto.
    + intros i Hi. rewrite Vy by exact Hi.
      assert (G := ntt_ntt_monomial k w j (at_ x) i ltac:(lia) Hw Hj Hi Mx). unfold eqQ in G. fold n in G. rewrite G.
      destruct (i =? (if j =? 0 then 0 else n - j)); [apply Z.mod_small; unfold Q; lia|reflexivity].
  - rewrite E. reflexivity.
Qed.

(** ** Forward and inverse *)

Lemma random_coeff_ok r : exists x, random_coeff rnd r = Ok (x, r + 1) /\ 0 <= x <= Q - 1.
Proof.
  unfold random_coeff. assert (H := Hrnd r). change (2 ^ 31) with 2147483648 in H.
  change ModelTests.Q with 12289. rewrite Z.rem_mod_nonneg by lia.
  assert (HB := Z.mod_pos_bound (rnd r) 12289 ltac:(lia)).
  rewrite to_i32_small by lia.
  replace (0 <=? rnd r mod 12289) with true by (symmetry; apply Z.leb_le; lia).
  replace (rnd r mod 12289 <=? 12289 - 1) with true by (symmetry; apply Z.leb_le; lia).
  cbn [andb cassert bind]. eexists. split; [reflexivity|]. unfold Q. lia.
Qed.

Lemma random_poly_ok a r : zlen a = n ->
  exists b r', random_poly rnd n a r = Ok (b, r') /\ zlen b = n /\ all_in 0 (Q - 1) b.
Proof.
  intros La. unfold random_poly.
  match goal with |- context [loop n ?B (a, r)] =>
    destruct (loop_ok (fun c (s : list Z * Z) => zlen (fst s) = n /\ forall i, 0 <= i < c -> 0 <= at_ (fst s) i <= Q - 1) n B (a, r))
      as ([b r'] & E & L & I) end.
  - exact Hn32.
  - split; [exact La|]. intros; lia.
  - intros i [b r'] Hi [Lb Ib]. cbn [fst] in *.
    destruct (random_coeff_ok r') as (x & Ex & Hx). rewrite Ex. cbn [bind]. rewrite wr_ok by lia. cbn [bind].
    eexists. split; [reflexivity|]. cbn [fst]. split; [rewrite aset_len; exact Lb|].
    intros m Hm. destruct (Z.eq_dec m i) as [->|]; [rewrite at_aset_same by lia; exact Hx|].
    rewrite at_aset_other by lia. apply Ib. lia.
  - exists b, r'. split; [exact E|]. cbn [fst] in *. split; [exact L|].
    apply all_in_of. intros i Hi. apply I. lia.
Qed.

Lemma check_inverse_ok a f g w wi std2rev : zlen a = n -> all_in 0 (Q - 1) a ->
  trans std2rev w f -> trans (negb std2rev) wi g ->
  eqQ (w ^ (2 ^ (k - 1))) (-1) -> eqQ (w * wi) 1 ->
  check_inverse stk n V a f g = Ok tt.
Proof.
  intros La Ia Hf Hg Hw Hwi. unfold check_inverse.
  destruct (fill_ok n (stk 1) (at_ a) (fun i b => do x <- rd a i; wr b i x) Hn32 (Hstk 1)) as (b & Eb & Lb & Vb).
  { intros i b Hi _. rewrite rd_ok by lia. reflexivity. }
  rewrite Eb. cbn [bind].
  assert (b = a) as -> by (apply (ProdFinal.list_ext _ _ n Lb La); exact Vb).
  destruct (Hbf a La Ia) as (x & Ex & Lx & Ix & Vx). rewrite Ex. cbn [bind].
  assert (T : exists r, (do b <- f x; do b <- between V b; g b) = Ok r /\ zlen r = 2 ^ k /\ all_in lo' hi' r
    /\ forall i, 0 <= i < 2 ^ k -> eqQ (at_ r i) (1 * (2 ^ k * at_ x i))).
  { destruct std2rev; cbn [negb] in Hg; unfold trans in Hf, Hg.
    - exact (trip_s2r k w wi Hk0 (fun _ => Hw) Hwi _ _ _ _ _ _ _ _ 1 _ _ f (between V) g Hbetween (pp1 k) Hf Hg x Lx Ix).
    - exact (trip_r2s k w wi Hk0 (fun _ => Hw) Hwi _ _ _ _ _ _ _ _ 1 _ _ f (between V) g Hbetween (pp1 k) Hf Hg x Lx Ix). }
  destruct T as (r & Er & Lr & Ir & Vr).
  destruct (f x) as [y|]; cbn [bind] in *; [|discriminate].
  destruct (between V y) as [z|]; cbn [bind] in *; [|discriminate].
  rewrite Er. cbn [bind].
  destruct (Hai r Lr Ir) as (s & Es & Ls & Vs). rewrite Es. cbn [bind].
  rewrite equal_arrays_ok; [reflexivity|exact Hn32|exact La|exact Ls|].
  intros i Hi. rewrite Vs by exact Hi. assert (HI := all_in_at _ _ _ i Ia ltac:(lia)).
  apply can_eq; [unfold NttElem.can; unfold Q in HI; lia|].
  rewrite Vr by exact Hi. rewrite Vx by exact Hi.
  transitivity (inv_n * 2 ^ k * at_ a i); [|qring]. rewrite Hinv. rewrite Z.mul_1_l. reflexivity.
Qed.

Lemma test_forward_inverse_ok f g w wi std2rev r : trans std2rev w f -> trans (negb std2rev) wi g ->
  eqQ (w ^ (2 ^ (k - 1))) (-1) -> eqQ (w * wi) 1 ->
  exists r', test_forward_inverse rnd stk n V f g r = Ok r'.
Proof.
  intros Hf Hg Hw Hwi. unfold test_forward_inverse.
  match goal with |- context [loop 1000 ?B ?s0] =>
    destruct (loop_ok (fun _ (s : list Z * Z) => zlen (fst s) = n) 1000 B s0) as ([b r'] & E & _) end.
  - lia.
  - apply Hstk.
  - intros i [a c] _ La. cbn [fst] in La.
    destruct (random_poly_ok a c La) as (b & r' & E & Lb & Ib). rewrite E. cbn [bind].
    rewrite (check_inverse_ok b f g w wi std2rev Lb Ib Hf Hg Hw Hwi). cbn [bind]. eauto.
  - rewrite E. cbn [bind]. eauto.
Qed.

(** ** Products *)

Lemma test_simple_product_ok f i m : multiplies f -> 0 <= i < n -> 0 <= m < n ->
  test_simple_product stk n V f i m = Ok tt.
Proof.
  intros Hf Hi Hm. unfold test_simple_product.
  destruct (simple_poly_ok (stk 0) i n Hn32 (Hstk 0) Hi) as (a & Ea & La & Va). rewrite Ea. cbn [bind].
  destruct (simple_poly_ok (stk 1) m n Hn32 (Hstk 1) Hm) as (b & Eb & Lb & Vb). rewrite Eb. cbn [bind].
  set (h := hset (hset stk 0 a) 1 b).
  assert (H0 : h 0 = a) by (unfold h; rewrite hset_other by lia; apply hset_same).
  assert (H1 : h 1 = b) by (unfold h; apply hset_same).
  assert (H2 : h 2 = stk 2) by (unfold h; rewrite !hset_other by lia; reflexivity).
  destruct (Hf h 2 0 1) as (h' & E & L & I & R).
  - lia.
  - rewrite H0. exact La.
  - rewrite H1. exact Lb.
  - rewrite H2. apply Hstk.
  - rewrite H0. exact (simple_range a n i La Va).
  - rewrite H1. exact (simple_range b n m Lb Vb).
  - rewrite E. cbn [bind]. rewrite H0, H1 in R.
    destruct (Hap (h' 2) L I) as (c & Ec & Lc & Vc). rewrite Ec. cbn [bind].
    rewrite (u32_small (i + m)) by lia.
    rewrite (equal_simple_poly_ok c n (i + m)); [reflexivity|lia|exact Lc|lia|].
    intros t Ht. rewrite Vc by exact Ht. rewrite Z.mul_1_l.
    assert (G := negacyclic_monomials n i m (at_ a) (at_ b) t Hi Hm Ht Va Vb). rewrite <- R in G by exact Ht.
    unfold eqQ in G. rewrite G.
    destruct (n <=? i + m); [destruct (t =? i + m - n)|destruct (t =? i + m)]; reflexivity.
Qed.

Lemma test_simple_products_ok f : multiplies f -> test_simple_products stk n V f = Ok tt.
Proof.
  intros Hf. unfold test_simple_products.
  match goal with |- loop n ?B tt = _ =>
    destruct (loop_ok (fun _ _ => True) n B tt) as ([] & E & _) end; [exact Hn32|exact I| |exact E].
  intros i st Hi _.
  match goal with |- context [loop n ?B tt] =>
    destruct (loop_ok (fun _ _ => True) n B tt) as ([] & E & _) end; [exact Hn32|exact I| |eauto].
  intros m st' Hm _. rewrite test_simple_product_ok by assumption. eauto.
Qed.

Variables (w wi : Z).
Hypothesis Hw : eqQ (w ^ (2 ^ (k - 1))) (-1).
Hypothesis Hwi : eqQ (w * wi) 1.
Hypothesis Hom : eqQ (f_omega X) w /\ 0 <= f_omega X < 12289.
Hypothesis Hiom : eqQ (f_inv_omega X) wi /\ 0 <= f_inv_omega X < 12289.
Hypothesis HX : trans false w (f_ct_rev2std X) /\ trans false w (f_gs_rev2std X)
  /\ trans true w (f_ct_std2rev X) /\ trans true w (f_gs_std2rev X)
  /\ trans false wi (f_intt_ct_rev2std X) /\ trans false wi (f_intt_gs_rev2std X)
  /\ trans true wi (f_intt_ct_std2rev X) /\ trans true wi (f_intt_gs_std2rev X).
Hypothesis HP : multiplies (f_product1 X) /\ multiplies (f_product2 X) /\ multiplies (f_product3 X)
  /\ multiplies (f_product4 X) /\ multiplies (f_product5 X).

Lemma tests_ok r : exists r', tests rnd stk n bt np V X r = Ok r'.
Proof.
  destruct HX as (X1 & X2 & X3 & X4 & X5 & X6 & X7 & X8). destruct HP as (P1 & P2 & P3 & P4 & P5).
  destruct Hom as [O1 O2]. destruct Hiom as [I1 I2].
  assert (Hr : eqQ (wi ^ (2 ^ (k - 1))) (-1)) by (apply (inv_root k w wi (fun _ => Hw) Hwi); lia).
  assert (Hiw : eqQ (wi * w) 1) by (rewrite Z.mul_comm; exact Hwi).
  unfold tests.
  rewrite (test_simple_polys_ok _ _ _ _ X1 O1 O2 Hw). cbn [bind].
  rewrite (test_simple_polys_ok _ _ _ _ X2 O1 O2 Hw). cbn [bind].
  rewrite (test_simple_polys_ok _ _ _ _ X3 O1 O2 Hw). cbn [bind].
  rewrite (test_simple_polys_ok _ _ _ _ X4 O1 O2 Hw). cbn [bind].
  rewrite (test_simple_polys_ok _ _ _ _ X5 I1 I2 Hr). cbn [bind].
  rewrite (test_simple_polys_ok _ _ _ _ X6 I1 I2 Hr). cbn [bind].
  rewrite (test_simple_polys_ok _ _ _ _ X7 I1 I2 Hr). cbn [bind].
  rewrite (test_simple_polys_ok _ _ _ _ X8 I1 I2 Hr). cbn [bind].
  destruct (test_forward_inverse_ok _ _ w wi true r X3 X5 Hw Hwi) as (r1 & ->). cbn [bind].
  destruct (test_forward_inverse_ok _ _ wi w false r1 X5 X3 Hr Hiw) as (r2 & ->). cbn [bind].
  destruct (test_forward_inverse_ok _ _ w wi true r2 X3 X6 Hw Hwi) as (r3 & ->). cbn [bind].
  destruct (test_forward_inverse_ok _ _ wi w false r3 X6 X3 Hr Hiw) as (r4 & ->). cbn [bind].
  destruct (test_forward_inverse_ok _ _ w wi true r4 X4 X6 Hw Hwi) as (r5 & ->). cbn [bind].
  destruct (test_forward_inverse_ok _ _ wi w false r5 X6 X4 Hr Hiw) as (r6 & ->). cbn [bind].
  rewrite (test_simple_products_ok _ P1), (test_simple_products_ok _ P2), (test_simple_products_ok _ P3),
    (test_simple_products_ok _ P4), (test_simple_products_ok _ P5). cbn [bind]. eauto.
Qed.
End Run.

(** ** Speed tests *)

Lemma NTESTS_range : 0 <= NTESTS < 4294967296.
Proof. unfold NTESTS. lia. Qed.

Section Speed.
Variables (clk : Z -> Z) (stk : heap) (n : Z).
Hypothesis Hn : 0 <= n <= 12289.
Hypothesis Hstk : forall p, zlen (stk p) = n.

Lemma median_ok t : zlen t = NTESTS -> exists t' m, median_time t = Ok (t', m) /\ zlen t' = NTESTS.
Proof.
  intros HL. assert (HN := NTESTS_range). unfold median_time.
  destruct (sort_sorts_L t NTESTS) as (b & E & HPm & HS & HK).
  - change (2 ^ 32) with 4294967296. exact HN.
  - unfold zlen in HL. lia.
  - rewrite E. cbn [bind].
    assert (Hb : firstn (Z.to_nat NTESTS) b = b /\ zlen b = NTESTS).
    { apply Permutation_length in HPm. rewrite (skipn_all2 t) in HK by (unfold zlen in HL; lia).
      assert (HD := firstn_skipn (Z.to_nat NTESTS) b). rewrite HK, app_nil_r in HD. split; [exact HD|].
      rewrite HD in HPm. rewrite (firstn_all2 t) in HPm by (unfold zlen in HL; lia). unfold zlen in *. lia. }
    destruct Hb as [Fb Lb]. rewrite Fb in HS.
    match goal with |- context [cfor ?F 1 ?C ?N ?B tt] =>
      destruct (cfor_count (fun _ _ => True) (NTESTS - 1) (fun c => c + 1) C N B) with (f := F) (i0 := 1) (st := tt) as ([] & E2 & _) end.
    + unfold NTESTS. lia.
    + intros c Hc. apply Z.ltb_lt. lia.
    + apply Z.ltb_ge. lia.
    + intros c Hc. apply u32_small. lia.
    + intros c st Hc _. rewrite u32_small by lia. rewrite !rd_ok by lia. cbn [bind].
      assert (HLe := sorted_at b HS (c + 1 - 1) (c + 1)).
      destruct (Z.ltb_spec (at_ b (c + 1)) (at_ b (c + 1 - 1))); [lia|]. cbn. eauto.
    + reflexivity.
    + unfold fuel. lia.
    + exact I.
    + rewrite E2. cbn [bind]. rewrite rd_ok.
      * cbn [bind]. eauto.
      * rewrite Lb. unfold NTESTS. change (102400 / 2) with 51200. lia.
Qed.

Lemma average_ok t : zlen t = NTESTS -> exists v, average_time t = Ok v.
Proof.
  intros HL. unfold average_time.
  match goal with |- context [loop NTESTS ?B 0] =>
    destruct (loop_ok (fun _ _ => True) NTESTS B 0) as (s & E & _) end.
  - exact NTESTS_range.
  - exact I.
  - intros i st Hi _. rewrite rd_ok by lia. cbn [bind]. eauto.
  - rewrite E. cbn [bind]. eauto.
Qed.

Lemma report_ok t c : zlen t = NTESTS -> exists t', report clk t c = Ok (t', c + 1) /\ zlen t' = NTESTS.
Proof.
  intros HL. unfold report. assert (HN := NTESTS_range).
  match goal with |- context [loop (NTESTS - 1) ?B t] =>
    destruct (loop_ok (fun _ t => zlen t = NTESTS) (NTESTS - 1) B t) as (t1 & E & L1) end.
  - unfold NTESTS. lia.
  - exact HL.
  - intros i u Hi Lu. rewrite u32_small by lia. rewrite !rd_ok by lia. cbn [bind]. rewrite wr_ok by lia.
    eexists. split; [reflexivity|]. rewrite aset_len. exact Lu.
  - rewrite E. cbn [bind]. rewrite rd_ok by (unfold NTESTS in *; lia). cbn [bind].
    rewrite wr_ok by (unfold NTESTS in *; lia). cbn [bind].
    match goal with |- context [average_time ?u] => set (t2 := u) end.
    assert (L2 : zlen t2 = NTESTS) by (unfold t2; rewrite aset_len; exact L1).
    destruct (average_ok t2 L2) as (v & ->). cbn [bind].
    destruct (median_ok t2 L2) as (t3 & m & -> & L3). cbn [bind]. eauto.
Qed.

Lemma speed_test_ok (P : list Z -> Prop) f t c :
  (forall a, zlen a = n -> (forall i, 0 <= i < n -> at_ a i = i) -> P a) ->
  (forall a, P a -> exists r, f a = Ok r /\ P r) ->
  zlen t = NTESTS -> exists t' c', speed_test clk stk n f t c = Ok (t', c') /\ zlen t' = NTESTS.
Proof.
  intros H0 Hf HL. unfold speed_test. assert (HN := NTESTS_range).
  destruct (fill_ok n (stk 0) (fun i => i) (fun i a => wr a i (to_i32 i))) as (a & E & La & Va).
  - lia.
  - apply Hstk.
  - intros i b Hi _. rewrite to_i32_small by lia. reflexivity.
  - rewrite E. cbn [bind].
    match goal with |- context [loop NTESTS ?B ?s0] =>
      destruct (loop_ok (fun _ (s : list Z * list Z * Z) => zlen (fst (fst s)) = NTESTS /\ P (snd (fst s))) NTESTS B s0)
        as ([[t1 a1] c1] & E1 & L1 & _) end.
    + exact HN.
    + cbn [fst snd]. split; [exact HL|]. apply H0; assumption.
    + intros i [[u b] d] Hi [Lu Pb]. cbn [fst snd] in *. rewrite wr_ok by lia. cbn [bind].
      destruct (Hf b Pb) as (r & -> & Pr). cbn [bind]. eexists. split; [reflexivity|]. cbn [fst snd].
      split; [rewrite aset_len; exact Lu|exact Pr].
    + rewrite E1. cbn [bind]. cbn [fst] in L1. destruct (report_ok t1 c1 L1) as (t2 & -> & L2). eauto.
Qed.

Lemma speed_test2_ok (P : heap -> Prop) f t c :
  (forall h, zlen (h 0) = n -> zlen (h 1) = n -> zlen (h 2) = n ->
     (forall i, 0 <= i < n -> at_ (h 0) i = i) -> (forall i, 0 <= i < n -> at_ (h 1) i = i) -> P h) ->
  (forall h, P h -> exists h', f h 2 0 1 = Ok h' /\ P h') ->
  zlen t = NTESTS -> exists t' c', speed_test2 clk stk n f t c = Ok (t', c') /\ zlen t' = NTESTS.
Proof.
  intros H0 Hf HL. unfold speed_test2. assert (HN := NTESTS_range).
  match goal with |- context [loop n ?B ?s0] =>
    destruct (loop_ok (fun c (s : list Z * list Z) => zlen (fst s) = n /\ zlen (snd s) = n
       /\ forall i, 0 <= i < c -> at_ (fst s) i = i /\ at_ (snd s) i = i) n B s0) as ([a b] & E & La & Lb & Vab) end.
  - lia.
  - cbn [fst snd]. split; [apply Hstk|]. split; [apply Hstk|]. intros; lia.
  - intros i [a b] Hi (La & Lb & Vab). cbn [fst snd] in *. rewrite to_i32_small by lia.
    rewrite !wr_ok by lia. cbn [bind]. eexists. split; [reflexivity|]. cbn [fst snd]. rewrite !aset_len.
    split; [exact La|]. split; [exact Lb|]. intros m Hm. destruct (Z.eq_dec m i) as [->|].
    + rewrite !at_aset_same by lia. auto.
    + rewrite !at_aset_other by lia. apply Vab. lia.
  - rewrite E. cbn [bind]. cbn [fst snd] in *.
    match goal with |- context [loop NTESTS ?B ?s0] =>
      destruct (loop_ok (fun _ (s : list Z * heap * Z) => zlen (fst (fst s)) = NTESTS /\ P (snd (fst s))) NTESTS B s0)
        as ([[t1 h1] c1] & E1 & L1 & _) end.
    + exact HN.
    + cbn [fst snd]. split; [exact HL|].
      assert (E0 : hset (hset stk 0 a) 1 b 0 = a) by (rewrite hset_other by lia; apply hset_same).
      assert (E1 : hset (hset stk 0 a) 1 b 1 = b) by apply hset_same.
      assert (E2 : hset (hset stk 0 a) 1 b 2 = stk 2) by (rewrite !hset_other by lia; reflexivity).
      apply H0; rewrite ?E0, ?E1, ?E2; auto; intros i Hi; apply Vab, Hi.
    + intros i [[u h] d] Hi [Lu Ph]. cbn [fst snd] in *. rewrite wr_ok by lia. cbn [bind].
      destruct (Hf h Ph) as (r & -> & Pr). cbn [bind]. eexists. split; [reflexivity|]. cbn [fst snd].
      split; [rewrite aset_len; exact Lu|exact Pr].
    + rewrite E1. cbn [bind]. cbn [fst] in L1. destruct (report_ok t1 c1 L1) as (t2 & -> & L2). eauto.
Qed.

(** [quick f]: the measured loop with [f] runs without error *)
Definition quick (f : list Z -> res (list Z)) : Prop :=
  exists P : list Z -> Prop,
  (forall a, zlen a = n -> (forall i, 0 <= i < n -> at_ a i = i) -> P a) /\
  (forall a, P a -> exists r, f a = Ok r /\ P r).
Definition quick2 (f : heap -> Z -> Z -> Z -> res heap) : Prop :=
  exists P : heap -> Prop,
  (forall h, zlen (h 0) = n -> zlen (h 1) = n -> zlen (h 2) = n ->
     (forall i, 0 <= i < n -> 0 <= at_ (h 0) i < 12289) -> (forall i, 0 <= i < n -> 0 <= at_ (h 1) i < 12289) -> P h) /\
  (forall h, P h -> exists h', f h 2 0 1 = Ok h' /\ P h') /\
  (forall h, P h -> zlen (h 0) = n /\ zlen (h 1) = n /\ zlen (h 2) = n).

Lemma speed_tests_ok X :
  quick (f_ct_rev2std X) /\ quick (f_gs_rev2std X) /\ quick (f_ct_std2rev X) /\ quick (f_gs_std2rev X)
  /\ quick (f_intt_ct_rev2std X) /\ quick (f_intt_gs_rev2std X) /\ quick (f_intt_ct_std2rev X) /\ quick (f_intt_gs_std2rev X) ->
  quick2 (f_product1 X) /\ quick2 (f_product2 X) /\ quick2 (f_product3 X) /\ quick2 (f_product4 X) /\ quick2 (f_product5 X) ->
  speed_tests clk stk n X = Ok tt.
Proof.
  intros (X1 & X2 & X3 & X4 & X5 & X6 & X7 & X8) (Y1 & Y2 & Y3 & Y4 & Y5).
  assert (G : forall f t c, quick f -> zlen t = NTESTS -> exists t' c', speed_test clk stk n f t c = Ok (t', c') /\ zlen t' = NTESTS).
  { intros f t c (P & P1 & P2). apply (speed_test_ok P); assumption. }
  assert (G2 : forall f t c, quick2 f -> zlen t = NTESTS -> exists t' c', speed_test2 clk stk n f t c = Ok (t', c') /\ zlen t' = NTESTS).
  { intros f t c (P & P1 & P2 & _). apply (speed_test2_ok P); [|assumption].
    intros h L0 L1 L2 V0 V1. apply P1; try assumption; intros i Hi; rewrite ?V0, ?V1 by exact Hi; lia. }
  unfold speed_tests.
  assert (L0 : zlen (repeat 0 (Z.to_nat NTESTS)) = NTESTS).
  { unfold zlen. rewrite repeat_length. apply Z2Nat.id. exact (proj1 NTESTS_range). }
  revert L0. generalize (repeat 0 (Z.to_nat NTESTS)). intros t0 L0.
  destruct (G _ t0 0 X1 L0) as (t1 & c1 & -> & L1). cbn [bind].
  destruct (G _ t1 c1 X2 L1) as (t2 & c2 & -> & L2). cbn [bind].
  destruct (G _ t2 c2 X3 L2) as (t3 & c3 & -> & L3). cbn [bind].
  destruct (G _ t3 c3 X4 L3) as (t4 & c4 & -> & L4). cbn [bind].
  destruct (G _ t4 c4 X5 L4) as (t5 & c5 & -> & L5). cbn [bind].
  destruct (G _ t5 c5 X6 L5) as (t6 & c6 & -> & L6). cbn [bind].
  destruct (G _ t6 c6 X7 L6) as (t7 & c7 & -> & L7). cbn [bind].
  destruct (G _ t7 c7 X8 L7) as (t8 & c8 & -> & L8). cbn [bind].
  destruct (G2 _ t8 c8 Y1 L8) as (t9 & c9 & -> & L9). cbn [bind].
  destruct (G2 _ t9 c9 Y2 L9) as (ta & ca & -> & La). cbn [bind].
  destruct (G2 _ ta ca Y3 La) as (tb & cb & -> & Lb). cbn [bind].
  destruct (G2 _ tb cb Y4 Lb) as (tc & cc & -> & Lc). cbn [bind].
  destruct (G2 _ tc cc Y5 Lc) as (td & cd & -> & Ld). cbn [bind]. reflexivity.
Qed.
End Speed.
