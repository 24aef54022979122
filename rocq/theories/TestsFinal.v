(** The test programs: final statements. *)

From Coq Require Import ZArith List Bool Lia Setoid Morphisms.
From Verif Require Import CSem Spec Loops ModQ Conv HeapElem TableSpec ModelNtt ModelNaive ModelRed ModelGen ModelProducts
  ModelAvxProd AvxArrays AvxProd AvxNttFinal ProdGen NttElem NaiveElem ProdFinal ElemFinal ShuffleFinal AvxProdFinal HeadersElem HeadersFinal
  ModelTests RoundTrip TestsElem TestsRun CommittedTables ExTables.
Import Spec.
From Verif Require ProdNtt ProdNaive ProdRed.
Import ListNotations.
Open Scope Z_scope.

(** ** What happens around the transforms *)

Lemma pow_u32 k : 1 <= k <= 11 -> 2 <= 2 ^ k <= 2048.
Proof.
  intros Hk. change 2 with (2 ^ 1) at 1. change 2048 with (2 ^ 11). split; apply Z.pow_le_mono_r; lia.
Qed.

Lemma canon_id k : canon k 0 (Q - 1) 1 (fun a => Ok a).
Proof.
  intros a HL Ha. exists a. split; [reflexivity|]. split; [exact HL|]. intros i Hi.
  rewrite Z.mul_1_l. symmetry. apply Z.mod_small. assert (HI := all_in_at _ _ _ i Ha ltac:(lia)). lia.
Qed.

Lemma canon_scalar k c : 1 <= k <= 11 -> 0 <= c < Q -> canon k 0 (Q - 1) c (fun b => scalar_mul_array b (2 ^ k) c).
Proof.
  intros Hk Hc a HL Ha. assert (HN := pow_u32 k Hk).
  destruct (scalar_mul_array_exact_L a (2 ^ k) c) as (r & E & L & R & _).
  - change (2 ^ 32) with 4294967296. lia.
  - lia.
  - exact Ha.
  - lia.
  - exists r. split; [exact E|]. split; [lia|]. intros i Hi. rewrite R by exact Hi. f_equal. ring.
Qed.

Lemma ntt_normalize_ok k a : 1 <= k <= 11 -> zlen a = 2 ^ k -> all_in (- Q + 1) (Q - 1) a ->
  exists r, ntt_normalize a (2 ^ k) = Ok r /\ zlen r = 2 ^ k /\ forall i, 0 <= i < 2 ^ k -> at_ r i = at_ a i mod Q.
Proof.
  intros Hk HL Ha. assert (HN := pow_u32 k Hk). unfold ntt_normalize.
  assert (Hv : forall i, 0 <= i < 2 ^ k -> -12288 <= at_ a i <= 12288).
  { intros i Hi. assert (HI := all_in_at _ _ _ i Ha ltac:(lia)). unfold Q in HI. lia. }
  match goal with |- context [loop (2 ^ k) ?B a] =>
    destruct (loop_ok (fun c b => zlen b = 2 ^ k /\ (forall i, 0 <= i < c -> at_ b i = at_ a i mod Q)
       /\ forall i, c <= i < 2 ^ k -> at_ b i = at_ a i) (2 ^ k) B a) as (r & E & L & R & _) end.
  - lia.
  - split; [exact HL|]. split; intros; [lia|reflexivity].
  - intros i b Hi (Lb & R1 & R2). rewrite rd_ok by lia. cbn [bind]. rewrite R2 by lia. specialize (Hv i Hi).
    destruct (Z.ltb_spec (at_ a i) 0).
    + unfold add32. change ModelTests.Q with 12289. rewrite i32_ok by lia. cbn [bind]. rewrite wr_ok by lia.
      eexists. split; [reflexivity|]. rewrite aset_len. split; [exact Lb|]. split; intros m Hm.
      * destruct (Z.eq_dec m i) as [->|].
        -- rewrite at_aset_same by lia. unfold Q. apply (Z.mod_unique_pos _ _ (-1)); lia.
        -- rewrite at_aset_other by lia. apply R1. lia.
      * rewrite at_aset_other by lia. apply R2. lia.
    + eexists. split; [reflexivity|]. split; [exact Lb|]. split; intros m Hm.
      * destruct (Z.eq_dec m i) as [->|].
        -- rewrite R2 by lia. symmetry. apply Z.mod_small. unfold Q. lia.
        -- apply R1. lia.
      * apply R2. lia.
  - eauto.
Qed.

Lemma canon_normalize_naive k : 1 <= k <= 11 -> canon k (- Q + 1) (Q - 1) 1 (fun a => ntt_normalize a (2 ^ k)).
Proof.
  intros Hk a HL Ha. destruct (ntt_normalize_ok k a Hk HL Ha) as (r & E & L & R). exists r.
  split; [exact E|]. split; [exact L|]. intros i Hi. rewrite R by exact Hi. f_equal. ring.
Qed.

Lemma scales_widen k : scales k 0 (Q - 1) (- Q + 1) (Q - 1) 1 (fun a => Ok a).
Proof.
  intros a HL Ha. exists a. split; [reflexivity|]. split; [exact HL|]. split.
  - intros v Hv. specialize (Ha v Hv). unfold Q in *. lia.
  - intros j _. rewrite Z.mul_1_l. reflexivity.
Qed.

Lemma canon_scalar_naive k c : 1 <= k <= 11 -> 0 <= c < Q ->
  canon k (- Q + 1) (Q - 1) c (fun b => do b <- scalar_mul_array_naive b (2 ^ k) c 12289; ntt_normalize b (2 ^ k)).
Proof.
  intros Hk Hc a HL Ha. assert (HN := pow_u32 k Hk). unfold Q in Hc.
  destruct (scalar_mul_array_naive_spec a (2 ^ k) c) as (b & E & L & R & _).
  - lia.
  - lia.
  - intros i Hi. assert (HI := all_in_at _ _ _ i Ha ltac:(lia)). unfold Q in HI. nia.
  - rewrite E. cbn [bind]. destruct (ntt_normalize_ok k b Hk ltac:(lia)) as (r & E2 & L2 & R2).
    + apply all_in_of. intros i Hi. rewrite R by lia. assert (HC := can1_rem (at_ a i * c)). unfold can1 in HC. unfold Q. lia.
    + exists r. split; [exact E2|]. split; [exact L2|]. intros i Hi. rewrite R2 by exact Hi. rewrite R by exact Hi.
      change (eqQ (Z.rem (at_ a i * c) 12289) (c * at_ a i)). rewrite eqQ_rem. qring.
Qed.

Lemma scales_shift k : 1 <= k <= 11 -> scales k 0 (Q - 1) (-21499) 21499 1 (fun a => shift_array a (2 ^ k)).
Proof.
  intros Hk a HL Ha. assert (HN := pow_u32 k Hk).
  destruct (shift_array_centred_L a (2 ^ k)) as (r & E & L & R & _).
  - change (2 ^ 32) with 4294967296. lia.
  - lia.
  - exact Ha.
  - exists r. split; [exact E|]. split; [lia|]. split.
    + apply all_in_of. intros i Hi. destruct (R i ltac:(lia)) as [R1 _]. lia.
    + intros j Hj. rewrite Z.mul_1_l. apply R, Hj.
Qed.

Lemma scales_maybe_shift k (b : bool) : 1 <= k <= 11 ->
  scales k 0 (Q - 1) (-21499) 21499 1 (fun a => if b then shift_array a (2 ^ k) else Ok a).
Proof.
  intros Hk. destruct b; [apply scales_shift, Hk|].
  intros a HL Ha. exists a. split; [reflexivity|]. split; [exact HL|]. split.
  - intros v Hv. specialize (Ha v Hv). unfold Q in *. lia.
  - intros j _. rewrite Z.mul_1_l. reflexivity.
Qed.

Lemma normalize_ok k a : 1 <= k <= 11 -> zlen a = 2 ^ k -> all_in (- 2 ^ 31) (2 ^ 31 - 1) a ->
  exists r, normalize a (2 ^ k) = Ok r /\ zlen r = 2 ^ k /\ all_in 0 (Q - 1) r
    /\ forall i, 0 <= i < 2 ^ k -> at_ r i = at_ a i mod Q.
Proof.
  intros Hk HL Ha. assert (HN := pow_u32 k Hk).
  destruct (normalize_canonical_L a (2 ^ k)) as (r & E & L & R & _).
  - change (2 ^ 32) with 4294967296. lia.
  - lia.
  - exact Ha.
  - exists r. split; [exact E|]. split; [lia|]. split; [|exact R].
    apply all_in_of. intros i Hi. rewrite R by lia. assert (HB := Z.mod_pos_bound (at_ a i) Q). unfold Q in *. lia.
Qed.

Lemma canon_normalize k : 1 <= k <= 11 -> canon k (- 2 ^ 31) (2 ^ 31 - 1) 1 (fun a => normalize a (2 ^ k)).
Proof.
  intros Hk a HL Ha. destruct (normalize_ok k a Hk HL Ha) as (r & E & L & _ & R). exists r.
  split; [exact E|]. split; [exact L|]. intros i Hi. rewrite R by exact Hi. f_equal. ring.
Qed.

Lemma scales_between k b : 1 <= k <= 11 -> scales k (- 2 ^ 31) (2 ^ 31 - 1) (-21499) 21499 1
  (fun a => do a <- normalize a (2 ^ k); if b : bool then shift_array a (2 ^ k) else Ok a).
Proof.
  intros Hk a HL Ha. destruct (normalize_ok k a Hk HL Ha) as (r & E & L & I & R). rewrite E. cbn [bind].
  destruct (scales_maybe_shift k b Hk r L I) as (s & E2 & L2 & I2 & R2). exists s.
  split; [exact E2|]. split; [exact L2|]. split; [exact I2|]. intros j Hj. rewrite R2 by exact Hj.
  rewrite R by exact Hj. rewrite eqQ_mod. reflexivity.
Qed.

Lemma canon_scalar_red k c : 1 <= k <= 11 -> 0 <= c < Q -> canon k (- 2 ^ 31) (2 ^ 31 - 1) c
  (fun b => do b <- normalize b (2 ^ k); scalar_mul_array b (2 ^ k) c).
Proof.
  intros Hk Hc a HL Ha. destruct (normalize_ok k a Hk HL Ha) as (r & E & L & I & R). rewrite E. cbn [bind].
  destruct (canon_scalar k c Hk Hc r L I) as (s & E2 & L2 & R2). exists s.
  split; [exact E2|]. split; [exact L2|]. intros i Hi. rewrite R2 by exact Hi. rewrite R by exact Hi.
  change (eqQ (c * (at_ a i mod Q)) (c * at_ a i)). rewrite eqQ_mod. reflexivity.
Qed.

Lemma shuffle_ok size m bt k : make_bitrev_table size = Ok (Written (m, bt)) -> size = 2 ^ k -> 1 <= k <= 11 ->
  forall a, zlen a = 2 ^ k -> exists r, shuffle_with_table a bt m = Ok r /\ zlen r = 2 ^ k
    /\ forall i, 0 <= i < 2 ^ k -> at_ r (bitrev k i) = at_ a i.
Proof.
  intros E -> Hk a HL. destruct (bitrev_table_shuffle_agrees_L _ _ _ E) as (_ & _ & H).
  destruct (H a HL) as (r & E1 & E2).
  destruct (bitrev_shuffle_correct_L k a ltac:(lia) HL) as (r' & E3 & L & R).
  rewrite E2 in E3. injection E3 as ->. eauto.
Qed.

(** ** Repeated calls *)

Lemma quick_s2r k w lo hi f : 1 <= k <= 11 -> lo <= 0 -> Q - 1 <= hi ->
  s2r k lo hi lo hi w (fun _ => 1) (fun _ => 1) f -> quick (2 ^ k) f.
Proof.
  intros Hk Hlo Hhi H. assert (HN := pow_u32 k Hk). exists (fun a => zlen a = 2 ^ k /\ all_in lo hi a). split.
  - intros a HL Ha. split; [exact HL|]. apply all_in_of. intros i Hi. rewrite Ha by lia. unfold Q in Hhi. lia.
  - intros a [HL Ha]. destruct (H a HL Ha) as (r & E & L & I & _). eauto.
Qed.
Lemma quick_r2s k w lo hi f : 1 <= k <= 11 -> lo <= 0 -> Q - 1 <= hi ->
  r2s k lo hi lo hi w (fun _ => 1) (fun _ => 1) f -> quick (2 ^ k) f.
Proof.
  intros Hk Hlo Hhi H. assert (HN := pow_u32 k Hk). exists (fun a => zlen a = 2 ^ k /\ all_in lo hi a). split.
  - intros a HL Ha. split; [exact HL|]. apply all_in_of. intros i Hi. rewrite Ha by lia. unfold Q in Hhi. lia.
  - intros a [HL Ha]. destruct (H a HL Ha) as (r & E & L & I & _). eauto.
Qed.

(** A product that keeps its arguments in range can be called again *)
Section Again.
Variables (k psi : Z) (F G : list (list Z -> res (list Z)))
  (mulh : heap -> Z -> Z -> Z -> res heap) (Bin : Z -> Prop).
Let n := 2 ^ k.
Let hat (x : Z -> Z) (j : Z) := NTT n (psi ^ 2) (fun i => x i * psi ^ i) j.
Hypothesis Hk : 1 <= k <= 11.
Hypothesis H0 : forall v, 0 <= v < 12289 -> Bin v.
Hypothesis HF : forall x, zlen x = n -> (forall i, 0 <= i < n -> Bin (at_ x i)) ->
  exists r, runs F x = Ok r /\ zlen r = n /\ (forall j, 0 <= j < n ->
     eqQ (at_ r (bitrev k j)) (1 * hat (at_ x) j) /\ Bin (at_ r j)).
Hypothesis HM : forall h c a b, n <= zlen (h c) -> n <= zlen (h a) -> n <= zlen (h b) ->
  (forall i, 0 <= i < n -> Bin (at_ (h a) i) /\ Bin (at_ (h b) i)) ->
  exists h', mulh h c a b = Ok h' /\ zlen (h' c) = zlen (h c)
    /\ (forall i, 0 <= i < n -> eqQ (at_ (h' c) i) (1 * (at_ (h a) i * at_ (h b) i))
         /\ Bin (at_ (h' c) i))
    /\ (forall p, p <> c -> h' p = h p).
Hypothesis HG : forall x A B, zlen x = n -> (forall i, 0 <= i < n -> Bin (at_ x i)) ->
  (forall j, 0 <= j < n -> eqQ (at_ x (bitrev k j)) (1 * 1 * 1 * (hat A j * hat B j))) ->
  exists r, runs G x = Ok r /\ zlen r = n /\ (forall m, 0 <= m < n ->
     eqQ (at_ r m) (negacyclic n A B m) /\ Bin (at_ r m)).

Lemma quick2_product : quick2 n (product F G mulh).
Proof.
  assert (HN := pow_u32 k Hk). fold n in HN.
  exists (fun h => (zlen (h 0) = n /\ zlen (h 1) = n /\ zlen (h 2) = n)
    /\ (forall i, 0 <= i < n -> Bin (at_ (h 0) i)) /\ (forall i, 0 <= i < n -> Bin (at_ (h 1) i))).
  split; [|split; [|intros h [X _]; exact X]].
  - intros h L0 L1 L2 V0 V1. split; [auto|]. split; intros i Hi; apply H0; auto.
  - intros h ((L0 & L1 & L2) & B0 & B1).
    destruct (HF (h 0) L0 B0) as (ra & Ea & Lra & Ra).
    destruct (HF (h 1) L1 B1) as (rb & Eb & Lrb & Rb).
    destruct (chain_ok 0 F h ra Ea) as (h1 & C1 & V1 & O1).
    assert (Hb1 : h1 1 = h 1) by (apply O1; lia).
    destruct (chain_ok 1 F h1 rb ltac:(rewrite Hb1; exact Eb)) as (h2 & C2 & V2 & O2).
    assert (Ha2 : h2 0 = ra) by (rewrite O2 by lia; exact V1).
    assert (Lc2 : h2 2 = h 2) by (rewrite O2, O1 by lia; reflexivity).
    destruct (HM h2 2 0 1) as (h3 & E3 & L3 & R3 & O3).
    + rewrite Lc2. lia.
    + rewrite Ha2. lia.
    + rewrite V2. lia.
    + intros i Hi. rewrite Ha2, V2. split; [apply Ra|apply Rb]; exact Hi.
    + destruct (HG (h3 2) (at_ (h 0)) (at_ (h 1))) as (r & E4 & L4 & R4).
      * rewrite L3, Lc2. exact L2.
      * intros i Hi. apply R3, Hi.
      * intros j Hj. assert (HR := bitrev_range k j ltac:(lia)).
        rewrite (proj1 (R3 (bitrev k j) HR)). rewrite Ha2, V2.
        rewrite (proj1 (Ra j Hj)), (proj1 (Rb j Hj)). qring.
      * destruct (chain_ok 2 G h3 r E4) as (h4 & C4 & V4 & O4).
        exists h4. unfold product. rewrite C1, C2, E3. cbn [bind]. rewrite C4. split; [reflexivity|].
        rewrite V4, !O4, !O3, Ha2, V2 by lia. split; [auto|]. split; intros i Hi; [apply Ra|apply Rb]; exact Hi.
Qed.
End Again.

(** ** The programs *)

(** The products of this version can be called again *)
Lemma quick2_default k psi T : 1 <= k <= 11 -> eqQ (psi ^ (2 ^ k)) (-1) -> tables_ok k psi T ->
  quick2 (2 ^ k) (ntt_product1 (2 ^ k) T) /\ quick2 (2 ^ k) (ntt_product2 (2 ^ k) T)
  /\ quick2 (2 ^ k) (ntt_product3 (2 ^ k) T) /\ quick2 (2 ^ k) (ntt_product4 (2 ^ k) T)
  /\ quick2 (2 ^ k) (ntt_product5 (2 ^ k) T).
Proof.
  intros Hk Hroot HT. assert (Hk31 : 0 <= k <= 31) by lia. assert (HN := pow_u32 k Hk).
  assert (G : forall F H, ProdNtt.fwd_ok k psi F -> ProdNtt.bwd_ok k psi H ->
    quick2 (2 ^ k) (product F H (fun h c a b => mul_array_h h c (2 ^ k) a b))).
  { intros F H HF HB. apply (quick2_product k psi F H _ can Hk); [auto|exact HF| |exact HB].
    intros h c a b Lc La Lb HBd.
    destruct (mul_array_h_spec (2 ^ k) h c a b ltac:(lia) Lc La Lb HBd) as (h' & E1 & L & R & _ & O).
    exists h'. split; [exact E1|]. split; [exact L|]. split; [|exact O].
    intros i Hi. rewrite R by exact Hi. split; [rewrite eqQ_modn; qring|apply can_mod]. }
  split; [exact (G _ _ (ProdNtt.n_fwd_ct k psi T Hk31 Hroot HT) (ProdNtt.n_bwd_ct k psi T Hk31 Hroot HT))|].
  split; [exact (G _ _ (ProdNtt.n_fwd_gs k psi T Hk31 Hroot HT) (ProdNtt.n_bwd_ct k psi T Hk31 Hroot HT))|].
  split; [exact (G _ _ (ProdNtt.n_fwd_ct k psi T Hk31 Hroot HT) (ProdNtt.n_bwd_gs k psi T Hk31 Hroot HT))|].
  split; [exact (G _ _ (ProdNtt.n_fwd_gs k psi T Hk31 Hroot HT) (ProdNtt.n_bwd_gs k psi T Hk31 Hroot HT))|].
  exact (G _ _ (ProdNtt.n_fwd_mul k psi T Hk31 Hroot HT) (ProdNtt.n_bwd_mul k psi T Hk31 Hroot HT)).
Qed.

Lemma test_ntt_main_ok_L :
  forall malloc size psi T m bt rnd clk stk, (forall n, 0 <= n -> zlen (malloc n) = n) ->
  make_tables malloc size psi = Ok (Written T) -> make_bitrev_table size = Ok (Written (m, bt)) ->
  (forall i, 0 <= rnd i < 2 ^ 31) -> (forall p, zlen (stk p) = size) ->
  test_ntt_main rnd clk stk size T bt m = Ok 0.
Proof.
  intros malloc size psi T m bt rnd clk stk HM E Eb Hr Hs.
  assert (HP := ntt_products_correct_L malloc size psi T HM E).
  destruct (gen_tables _ _ _ _ HM E) as (k & Hk & Hsz & Hroot & HT).
  assert (HSh := shuffle_ok size m bt k Eb Hsz Hk). subst size.
  assert (Hk31 : 0 <= k <= 31) by lia. assert (HN := pow_u32 k Hk).
  destruct (ok_inv_n _ _ _ HT) as [Ni Nr]. destruct (ok_omega _ _ _ HT) as [Wi Wr].
  destruct (ok_inv_psi _ _ _ HT) as [Pi Pr]. destruct (ok_inv_omega _ _ _ HT) as [Vi Vr].
  assert (Wii := inv_sq _ _ _ _ Wi Pi Vi).
  unfold test_ntt_main, main.
  destruct (tests_ok rnd stk k bt m (default_variant (2 ^ k) T) (default_functions (2 ^ k) T)
    0 (Q - 1) 0 (Q - 1) 0 (Q - 1) (t_inv_n T)) with (w := psi ^ 2) (wi := t_inv_psi T ^ 2) (r := 0) as (r & ->);
    cbn [default_variant default_functions before after before_forward between after_inverse after_product
      f_ct_rev2std f_gs_rev2std f_ct_std2rev f_gs_std2rev f_intt_ct_rev2std f_intt_gs_rev2std f_intt_ct_std2rev
      f_intt_gs_std2rev f_omega f_inv_omega f_product1 f_product2 f_product3 f_product4 f_product5].
  - exact Hk.
  - exact Hs.
  - exact Hr.
  - exact HSh.
  - apply scales_id.
  - apply canon_id.
  - apply scales_id.
  - apply scales_id.
  - apply canon_scalar; assumption.
  - apply canon_id.
  - rewrite Z.mul_comm. exact Ni.
  - apply omega_root; [assumption|lia].
  - apply omega_inv; assumption.
  - split; assumption.
  - split; assumption.
  - unfold trans.
    split; [exact (t_n_ct_rev2std k psi T Hk31 Hroot HT)|]. split; [exact (t_n_gs_rev2std k psi T Hk31 Hroot HT)|].
    split; [exact (t_n_ct_std2rev k psi T Hk31 Hroot HT)|]. split; [exact (t_n_gs_std2rev k psi T Hk31 Hroot HT)|].
    split; [exact (t_n_intt_ct_rev2std k psi T Hk31 Hroot HT)|]. split; [exact (t_n_intt_gs_rev2std k psi T Hk31 Hroot HT)|].
    split; [exact (t_n_intt_ct_std2rev k psi T Hk31 Hroot HT)|]. exact (t_n_intt_gs_std2rev k psi T Hk31 Hroot HT).
  - assert (G : forall f, In f [ntt_product1 (2 ^ k) T; ntt_product2 (2 ^ k) T; ntt_product3 (2 ^ k) T; ntt_product4 (2 ^ k) T; ntt_product5 (2 ^ k) T] ->
      multiplies k 0 (Q - 1) f).
    { intros f HI h c a b Hab La Lb Lc Ia Ib.
      destruct (HP f HI h c a b Hab La Lb Lc Ia Ib) as (h' & E1 & E2 & E3 & E4 & _).
      exists h'. split; [exact E1|]. split; [exact E2|]. split; [exact E3|]. intros i Hi. rewrite E4 by exact Hi.
      apply eqQ_mod. }
    split; [apply G; left; reflexivity|]. split; [apply G; right; left; reflexivity|].
    split; [apply G; do 2 right; left; reflexivity|]. split; [apply G; do 3 right; left; reflexivity|].
    apply G; do 4 right; left; reflexivity.
  - cbn [bind]. rewrite (speed_tests_ok clk stk (2 ^ k)); [reflexivity|lia|exact Hs| |];
    cbn [default_functions f_ct_rev2std f_gs_rev2std f_ct_std2rev f_gs_std2rev f_intt_ct_rev2std f_intt_gs_rev2std f_intt_ct_std2rev
      f_intt_gs_std2rev f_product1 f_product2 f_product3 f_product4 f_product5].
    + split; [exact (quick_r2s _ _ 0 (Q - 1) _ Hk (Z.le_refl _) (Z.le_refl _) (t_n_ct_rev2std k psi T Hk31 Hroot HT))|].
      split; [exact (quick_r2s _ _ 0 (Q - 1) _ Hk (Z.le_refl _) (Z.le_refl _) (t_n_gs_rev2std k psi T Hk31 Hroot HT))|].
      split; [exact (quick_s2r _ _ 0 (Q - 1) _ Hk (Z.le_refl _) (Z.le_refl _) (t_n_ct_std2rev k psi T Hk31 Hroot HT))|].
      split; [exact (quick_s2r _ _ 0 (Q - 1) _ Hk (Z.le_refl _) (Z.le_refl _) (t_n_gs_std2rev k psi T Hk31 Hroot HT))|].
      split; [exact (quick_r2s _ _ 0 (Q - 1) _ Hk (Z.le_refl _) (Z.le_refl _) (t_n_intt_ct_rev2std k psi T Hk31 Hroot HT))|].
      split; [exact (quick_r2s _ _ 0 (Q - 1) _ Hk (Z.le_refl _) (Z.le_refl _) (t_n_intt_gs_rev2std k psi T Hk31 Hroot HT))|].
      split; [exact (quick_s2r _ _ 0 (Q - 1) _ Hk (Z.le_refl _) (Z.le_refl _) (t_n_intt_ct_std2rev k psi T Hk31 Hroot HT))|].
      exact (quick_s2r _ _ 0 (Q - 1) _ Hk (Z.le_refl _) (Z.le_refl _) (t_n_intt_gs_std2rev k psi T Hk31 Hroot HT)).
    + exact (quick2_default k psi T Hk Hroot HT).
Qed.

Lemma widen a : all_in 0 (Q - 1) a -> all_in (- Q + 1) (Q - 1) a.
Proof. intros Ha v Hv. specialize (Ha v Hv). unfold Q in *. lia. Qed.
Lemma neg_le : - Q + 1 <= 0.
Proof. unfold Q. lia. Qed.

(** The products of this version can be called again *)
Lemma quick2_naive k psi T : 1 <= k <= 11 -> eqQ (psi ^ (2 ^ k)) (-1) -> tables_ok k psi T ->
  quick2 (2 ^ k) (naive_product1 (2 ^ k) T) /\ quick2 (2 ^ k) (naive_product2 (2 ^ k) T)
  /\ quick2 (2 ^ k) (naive_product3 (2 ^ k) T) /\ quick2 (2 ^ k) (naive_product4 (2 ^ k) T)
  /\ quick2 (2 ^ k) (naive_product5 (2 ^ k) T).
Proof.
  intros Hk Hroot HT. assert (Hk31 : 0 <= k <= 31) by lia. assert (HN := pow_u32 k Hk).
  assert (G : forall F H, ProdNaive.fwd_ok k psi F -> ProdNaive.bwd_ok k psi H ->
    quick2 (2 ^ k) (product F H (fun h c a b => mul_array_naive_h h c (2 ^ k) a b 12289))).
  { intros F H HF HB. apply (quick2_product k psi F H _ can1 Hk); [unfold can1; lia|exact HF| |exact HB].
    intros h c a b Lc La Lb HBd.
    destruct (mul_array_naive_h_spec (2 ^ k) h c a b ltac:(lia) Lc La Lb HBd) as (h' & E1 & L & R & _ & O).
    exists h'. split; [exact E1|]. split; [exact L|]. split; [|exact O].
    intros i Hi. rewrite R by exact Hi. split; [rewrite eqQ_rem; qring|apply can1_rem]. }
  split; [exact (G _ _ (ProdNaive.v_fwd_ct k psi T Hk31 Hroot HT) (ProdNaive.v_bwd_ct k psi T Hk31 Hroot HT))|].
  split; [exact (G _ _ (ProdNaive.v_fwd_gs k psi T Hk31 Hroot HT) (ProdNaive.v_bwd_ct k psi T Hk31 Hroot HT))|].
  split; [exact (G _ _ (ProdNaive.v_fwd_ct k psi T Hk31 Hroot HT) (ProdNaive.v_bwd_gs k psi T Hk31 Hroot HT))|].
  split; [exact (G _ _ (ProdNaive.v_fwd_gs k psi T Hk31 Hroot HT) (ProdNaive.v_bwd_gs k psi T Hk31 Hroot HT))|].
  exact (G _ _ (ProdNaive.v_fwd_mul k psi T Hk31 Hroot HT) (ProdNaive.v_bwd_mul k psi T Hk31 Hroot HT)).
Qed.

Lemma test_naive_ntt_main_ok_L :
  forall malloc size psi T m bt rnd clk stk, (forall n, 0 <= n -> zlen (malloc n) = n) ->
  make_tables malloc size psi = Ok (Written T) -> make_bitrev_table size = Ok (Written (m, bt)) ->
  (forall i, 0 <= rnd i < 2 ^ 31) -> (forall p, zlen (stk p) = size) ->
  test_naive_ntt_main rnd clk stk size T bt m = Ok 0.
Proof.
  intros malloc size psi T m bt rnd clk stk HM E Eb Hr Hs.
  assert (HP := naive_products_correct_L malloc size psi T HM E).
  destruct (gen_tables _ _ _ _ HM E) as (k & Hk & Hsz & Hroot & HT).
  assert (HSh := shuffle_ok size m bt k Eb Hsz Hk). subst size.
  assert (Hk31 : 0 <= k <= 31) by lia. assert (HN := pow_u32 k Hk).
  destruct (ok_inv_n _ _ _ HT) as [Ni Nr]. destruct (ok_omega _ _ _ HT) as [Wi Wr].
  destruct (ok_inv_psi _ _ _ HT) as [Pi Pr]. destruct (ok_inv_omega _ _ _ HT) as [Vi Vr].
  assert (Wii := inv_sq _ _ _ _ Wi Pi Vi).
  unfold test_naive_ntt_main, main.
  destruct (tests_ok rnd stk k bt m (naive_variant (2 ^ k) T) (naive_functions (2 ^ k) T)
    (- Q + 1) (Q - 1) (- Q + 1) (Q - 1) (- Q + 1) (Q - 1) (t_inv_n T)) with (w := psi ^ 2) (wi := t_inv_psi T ^ 2) (r := 0) as (r & ->);
    cbn [naive_variant naive_functions before after before_forward between after_inverse after_product
      f_ct_rev2std f_gs_rev2std f_ct_std2rev f_gs_std2rev f_intt_ct_rev2std f_intt_gs_rev2std f_intt_ct_std2rev
      f_intt_gs_std2rev f_omega f_inv_omega f_product1 f_product2 f_product3 f_product4 f_product5].
  - exact Hk.
  - exact Hs.
  - exact Hr.
  - exact HSh.
  - apply scales_widen.
  - apply canon_normalize_naive, Hk.
  - apply scales_widen.
  - apply scales_id.
  - apply canon_scalar_naive; assumption.
  - apply canon_normalize_naive, Hk.
  - rewrite Z.mul_comm. exact Ni.
  - apply omega_root; [assumption|lia].
  - apply omega_inv; assumption.
  - split; assumption.
  - split; assumption.
  - unfold trans.
    split; [exact (t_v_ct_rev2std k psi T Hk31 Hroot HT)|]. split; [exact (t_v_gs_rev2std k psi T Hk31 Hroot HT)|].
    split; [exact (t_v_ct_std2rev k psi T Hk31 Hroot HT)|]. split; [exact (t_v_gs_std2rev k psi T Hk31 Hroot HT)|].
    split; [exact (t_v_intt_ct_rev2std k psi T Hk31 Hroot HT)|]. split; [exact (t_v_intt_gs_rev2std k psi T Hk31 Hroot HT)|].
    split; [exact (t_v_intt_ct_std2rev k psi T Hk31 Hroot HT)|]. exact (t_v_intt_gs_std2rev k psi T Hk31 Hroot HT).
  - assert (G : forall f, In f [naive_product1 (2 ^ k) T; naive_product2 (2 ^ k) T; naive_product3 (2 ^ k) T; naive_product4 (2 ^ k) T; naive_product5 (2 ^ k) T] ->
      multiplies k (- Q + 1) (Q - 1) f).
    { intros f HI h c a b Hab La Lb Lc Ia Ib.
      destruct (HP f HI h c a b Hab La Lb Lc (widen _ Ia) (widen _ Ib)) as (h' & E1 & E2 & E3 & E4 & _).
      exists h'. split; [exact E1|]. split; [exact E2|]. split; [exact E3|exact E4]. }
    split; [apply G; left; reflexivity|]. split; [apply G; right; left; reflexivity|].
    split; [apply G; do 2 right; left; reflexivity|]. split; [apply G; do 3 right; left; reflexivity|].
    apply G; do 4 right; left; reflexivity.
  - cbn [bind]. rewrite (speed_tests_ok clk stk (2 ^ k)); [reflexivity|lia|exact Hs| |];
    cbn [naive_functions f_ct_rev2std f_gs_rev2std f_ct_std2rev f_gs_std2rev f_intt_ct_rev2std f_intt_gs_rev2std f_intt_ct_std2rev
      f_intt_gs_std2rev f_product1 f_product2 f_product3 f_product4 f_product5].
    + split; [exact (quick_r2s _ _ (- Q + 1) (Q - 1) _ Hk neg_le (Z.le_refl _) (t_v_ct_rev2std k psi T Hk31 Hroot HT))|].
      split; [exact (quick_r2s _ _ (- Q + 1) (Q - 1) _ Hk neg_le (Z.le_refl _) (t_v_gs_rev2std k psi T Hk31 Hroot HT))|].
      split; [exact (quick_s2r _ _ (- Q + 1) (Q - 1) _ Hk neg_le (Z.le_refl _) (t_v_ct_std2rev k psi T Hk31 Hroot HT))|].
      split; [exact (quick_s2r _ _ (- Q + 1) (Q - 1) _ Hk neg_le (Z.le_refl _) (t_v_gs_std2rev k psi T Hk31 Hroot HT))|].
      split; [exact (quick_r2s _ _ (- Q + 1) (Q - 1) _ Hk neg_le (Z.le_refl _) (t_v_intt_ct_rev2std k psi T Hk31 Hroot HT))|].
      split; [exact (quick_r2s _ _ (- Q + 1) (Q - 1) _ Hk neg_le (Z.le_refl _) (t_v_intt_gs_rev2std k psi T Hk31 Hroot HT))|].
      split; [exact (quick_s2r _ _ (- Q + 1) (Q - 1) _ Hk neg_le (Z.le_refl _) (t_v_intt_ct_std2rev k psi T Hk31 Hroot HT))|].
      exact (quick_s2r _ _ (- Q + 1) (Q - 1) _ Hk neg_le (Z.le_refl _) (t_v_intt_gs_std2rev k psi T Hk31 Hroot HT)).
    + exact (quick2_naive k psi T Hk Hroot HT).
Qed.

(** The tests of the other two versions *)
Lemma red_tests_ok k psi T size malloc m bt rnd stk X shi : 1 <= k <= 10 -> size = 2 ^ k ->
  eqQ (psi ^ (2 ^ k)) (-1) -> red_tables_ok k psi T -> make_bitrev_table size = Ok (Written (m, bt)) ->
  (forall n, 0 <= n -> zlen (malloc n) = n) ->
  (forall i, 0 <= rnd i < 2 ^ 31) -> (forall p, zlen (stk p) = size) ->
  f_omega X = r_omega T -> f_inv_omega X = r_inv_omega T ->
  (let tr := trans k (-21499) 21499 (- 2 ^ 31) (2 ^ 31 - 1) in
   tr false (psi ^ 2) (f_ct_rev2std X) /\ tr false (psi ^ 2) (f_gs_rev2std X)
  /\ tr true (psi ^ 2) (f_ct_std2rev X) /\ tr true (psi ^ 2) (f_gs_std2rev X)
  /\ tr false (r_inv_psi T ^ 2) (f_intt_ct_rev2std X) /\ tr false (r_inv_psi T ^ 2) (f_intt_gs_rev2std X)
  /\ tr true (r_inv_psi T ^ 2) (f_intt_ct_std2rev X) /\ tr true (r_inv_psi T ^ 2) (f_intt_gs_std2rev X)) ->
  (forall f, In f [f_product1 X; f_product2 X; f_product3 X; f_product4 X; f_product5 X] ->
   forall h c a b, a <> b -> zlen (h a) = size -> zlen (h b) = size -> zlen (h c) = size ->
   all_in 0 (Q - 1) (h a) -> all_in 0 (Q - 1) (h b) ->
   exists h', f h c a b = Ok h' /\ zlen (h' c) = size /\ all_in 0 (Q - 1) (h' c)
    /\ (forall i, 0 <= i < size -> at_ (h' c) i = negacyclic size (at_ (h a)) (at_ (h b)) i mod Q)
    /\ (forall p, p <> a -> p <> b -> p <> c -> h' p = h p)) ->
  exists r, tests rnd stk size bt m (red_variant size T shi) X 0 = Ok r.
Proof.
  intros Hk10 Hsz Hroot HT Eb HM Hr Hs EO EI HX HP.
  assert (Hk : 1 <= k <= 11) by lia.
  assert (HSh := shuffle_ok size m bt k Eb Hsz Hk). subst size.
  assert (HN := pow_u32 k Hk).
  destruct (rok_inv_n _ _ _ HT) as [Ni Nr]. destruct (rok_omega _ _ _ HT) as [Wi Wr].
  destruct (rok_inv_psi _ _ _ HT) as [Pi Pr]. destruct (rok_inv_omega _ _ _ HT) as [Vi Vr].
  assert (Wii := inv_sq _ _ _ _ Wi Pi Vi).
  apply (tests_ok rnd stk k bt m (red_variant (2 ^ k) T shi) X
    (-21499) 21499 (- 2 ^ 31) (2 ^ 31 - 1) 0 (Q - 1) (r_inv_n T)) with (w := psi ^ 2) (wi := r_inv_psi T ^ 2);
    cbn [red_variant before after before_forward between after_inverse after_product].
  - exact Hk.
  - exact Hs.
  - exact Hr.
  - exact HSh.
  - apply scales_shift, Hk.
  - apply canon_normalize, Hk.
  - apply scales_maybe_shift, Hk.
  - apply scales_between, Hk.
  - apply canon_scalar_red; assumption.
  - apply canon_id.
  - rewrite Z.mul_comm. exact Ni.
  - apply omega_root; [assumption|lia].
  - apply omega_inv; assumption.
  - rewrite EO. split; assumption.
  - rewrite EI. split; assumption.
  - exact HX.
  - assert (G : forall f, In f [f_product1 X; f_product2 X; f_product3 X; f_product4 X; f_product5 X] ->
      multiplies k 0 (Q - 1) f).
    { intros f HI h c a b Hab La Lb Lc Ia Ib.
      destruct (HP f HI h c a b Hab La Lb Lc Ia Ib) as (h' & E1 & E2 & E3 & E4 & _).
      exists h'. split; [exact E1|]. split; [exact E2|]. split; [exact E3|]. intros i Hi. rewrite E4 by exact Hi.
      apply eqQ_mod. }
    split; [apply G; left; reflexivity|]. split; [apply G; right; left; reflexivity|].
    split; [apply G; do 2 right; left; reflexivity|]. split; [apply G; do 3 right; left; reflexivity|].
    apply G; do 4 right; left; reflexivity.
Qed.

Lemma test_ntt_red_tests_ok_L :
  forall malloc size psi T m bt rnd stk shi sh, (forall n, 0 <= n -> zlen (malloc n) = n) ->
  make_red_tables malloc size psi = Ok (Written T) -> size <= 1024 -> make_bitrev_table size = Ok (Written (m, bt)) ->
  (forall i, 0 <= rnd i < 2 ^ 31) -> (forall p, zlen (stk p) = size) ->
  exists r, tests rnd stk size bt m (red_variant size T shi) (red_functions size T sh) 0 = Ok r.
Proof.
  intros malloc size psi T m bt rnd stk shi sh HM E Hle Eb Hr Hs.
  assert (HP := red_products_correct_L malloc size psi T sh HM E Hle).
  destruct (gen_red_tables _ _ _ _ HM E) as (k & Hk & Hsz & Hroot & HT).
  assert (Hk10 : 0 <= k <= 10) by (apply size_le; [exact Hk|lia]).
  apply (red_tests_ok k psi T size malloc m bt rnd stk (red_functions size T sh) shi); try assumption; try lia; try reflexivity.
  subst size. unfold trans. cbv zeta.
  cbn [red_functions f_ct_rev2std f_gs_rev2std f_ct_std2rev f_gs_std2rev f_intt_ct_rev2std f_intt_gs_rev2std f_intt_ct_std2rev f_intt_gs_std2rev].
  split; [exact (t_r_ct_rev2std k psi T Hk10 Hroot HT)|]. split; [exact (t_r_gs_rev2std k psi T Hk10 Hroot HT)|].
  split; [exact (t_r_ct_std2rev k psi T Hk10 Hroot HT)|]. split; [exact (t_r_gs_std2rev k psi T Hk10 Hroot HT)|].
  split; [exact (t_r_intt_ct_rev2std k psi T Hk10 Hroot HT)|]. split; [exact (t_r_intt_gs_rev2std k psi T Hk10 Hroot HT)|].
  split; [exact (t_r_intt_ct_std2rev k psi T Hk10 Hroot HT)|]. exact (t_r_intt_gs_std2rev k psi T Hk10 Hroot HT).
Qed.

(** ** The AVX2 routines return for every array *)
Section Total.
Variable n : Z.
Definition total (f : list Z -> res (list Z)) : Prop :=
  forall a, zlen a = n -> exists r, f a = Ok r /\ zlen r = n.

Lemma quick_total f : total f -> quick n f.
Proof. intros H. exists (fun a => zlen a = n). split; [auto|exact H]. Qed.

Lemma runs_total F : Forall total F -> total (runs F).
Proof.
  induction 1 as [|f F Hf _ IH]; intros a HL; cbn [runs]; [eauto|].
  destruct (Hf a HL) as (r & -> & L). cbn [bind]. apply IH, L.
Qed.

Lemma quick2_total F G mulh : Forall total F -> Forall total G ->
  (forall h c a b, zlen (h c) = n -> zlen (h a) = n -> zlen (h b) = n ->
   exists h', mulh h c a b = Ok h' /\ zlen (h' c) = n /\ forall p, p <> c -> h' p = h p) ->
  quick2 n (product F G mulh).
Proof.
  intros HF HG HM. apply runs_total in HF, HG.
  exists (fun h => zlen (h 0) = n /\ zlen (h 1) = n /\ zlen (h 2) = n). split; [auto|]. split; [|auto].
  intros h (L0 & L1 & L2).
  destruct (HF (h 0) L0) as (ra & Ea & Lra). destruct (HF (h 1) L1) as (rb & Eb & Lrb).
  destruct (chain_ok 0 F h ra Ea) as (h1 & C1 & V1 & O1).
  assert (Hb1 : h1 1 = h 1) by (apply O1; lia).
  destruct (chain_ok 1 F h1 rb ltac:(rewrite Hb1; exact Eb)) as (h2 & C2 & V2 & O2).
  assert (Ha2 : h2 0 = ra) by (rewrite O2 by lia; exact V1).
  assert (Lc2 : h2 2 = h 2) by (rewrite O2, O1 by lia; reflexivity).
  destruct (HM h2 2 0 1) as (h3 & E3 & L3 & O3).
  - rewrite Lc2. exact L2.
  - rewrite Ha2. exact Lra.
  - rewrite V2. exact Lrb.
  - destruct (HG (h3 2) L3) as (r & E4 & L4).
    destruct (chain_ok 2 G h3 r E4) as (h4 & C4 & V4 & O4).
    exists h4. unfold product. rewrite C1, C2, E3. cbn [bind]. rewrite C4. split; [reflexivity|].
    rewrite V4, !O4, !O3, Ha2, V2 by lia. auto.
Qed.

Hypothesis Hn : mult16 n.
Lemma tot_of_eltw f : (forall a, n <= zlen a -> exists G r, f a = Ok r /\ eltw G a n r) -> total f.
Proof. intros H a HL. destruct (H a ltac:(lia)) as (G & r & E & L & _). exists r. split; [exact E|]. lia. Qed.

Lemma tot_reduce : total (fun x => ModelAvx.reduce_array_asm x n).
Proof. apply tot_of_eltw. intros a HL. eexists. apply reduce_array_asm_spec; assumption. Qed.
Lemma tot_twice : total (fun x => ModelAvx.reduce_array_twice_asm x n).
Proof. apply tot_of_eltw. intros a HL. eexists. apply reduce_array_twice_asm_spec; assumption. Qed.
Lemma tot_correct : total (fun x => ModelAvx.correct_asm x n).
Proof. apply tot_of_eltw. intros a HL. eexists. apply correct_asm_spec; assumption. Qed.
Lemma tot_shift sh : total (maybe_shift_asm sh n).
Proof.
  intros a HL. unfold maybe_shift_asm. destruct sh; [|eauto]. revert a HL. 
  apply tot_of_eltw. intros a HL. eexists. apply shift_array_asm_spec; assumption.
Qed.
Lemma tot_mul16 p : zlen p = n -> total (fun x => ModelAvx.mul_reduce_array16_asm x n p).
Proof.
  intros HP. apply tot_of_eltw. intros a HL. eexists.
  apply mul_reduce_array16_asm_spec; [assumption|assumption|lia].
Qed.
Lemma tot_scalar c : 0 <= c < Q -> total (fun x => ModelAvx.scalar_mul_reduce_array_asm x n c).
Proof.
  intros HP. apply tot_of_eltw. intros a HL. eexists.
  apply scalar_mul_reduce_array_asm_spec; [assumption|assumption|unfold w32, Q in *; lia].
Qed.
Lemma tot_mulh h c a b : zlen (h c) = n -> zlen (h a) = n -> zlen (h b) = n ->
   exists h', ModelAvx.mul_reduce_array_asm_h h c n a b = Ok h' /\ zlen (h' c) = n /\ forall p, p <> c -> h' p = h p.
Proof.
  intros Lc La Lb. destruct (mul_reduce_array_asm_h_spec h c n a b Hn ltac:(lia) ltac:(lia) ltac:(lia)) as (h' & E & (L & _) & O).
  exists h'. split; [exact E|]. split; [lia|exact O].
Qed.
End Total.

Section AsmTotal.
Variables (k psi : Z) (T : red_tables).
Hypothesis Hk : 4 <= k <= 10.
Hypothesis Hpsi : eqQ (psi ^ (2 ^ k)) (-1).
Hypothesis HT : red_tables_ok k psi T.

Let Hk31 : 4 <= k <= 31.
Proof. lia. Qed.
Let t16 p : all_in (-6144) 6144 p -> all_in (- 2 ^ 15) (2 ^ 15 - 1) p.
Proof. intros H. eapply all_in_weak; [exact H|lia|lia]. Qed.

Let plain w p : omega_table k w 8193 p -> all_in (-6144) 6144 p ->
  total (2 ^ k) (fun a => ModelAvx.ntt_red_ct_rev2std_asm a (2 ^ k) p)
  /\ total (2 ^ k) (fun a => ModelAvx.ntt_red_gs_std2rev_asm a (2 ^ k) p).
Proof.
  intros H HA. assert (H4 := omega_unit k w p H (fun i Hi => all_in_at _ _ _ i HA ltac:(rewrite (proj1 H); lia))).
  assert (LP : 2 ^ k <= zlen p) by (rewrite (proj1 H); lia).
  split; intros a HL; destruct (ntt_asm_in_bounds_L k a p Hk31 HL LP (t16 p HA) H4) as (B1 & B2 & B3 & B4); assumption.
Qed.
Let rev w p : omega_table_rev k w 8193 p -> all_in (-6144) 6144 p ->
  total (2 ^ k) (fun a => ModelAvx.ntt_red_ct_std2rev_asm a (2 ^ k) p)
  /\ total (2 ^ k) (fun a => ModelAvx.ntt_red_gs_rev2std_asm a (2 ^ k) p).
Proof.
  intros H HA. assert (H4 := omega_rev_unit k w p H (fun i Hi => all_in_at _ _ _ i HA ltac:(rewrite (proj1 H); lia))).
  assert (LP : 2 ^ k <= zlen p) by (rewrite (proj1 H); lia).
  split; intros a HL; destruct (ntt_asm_in_bounds_L k a p Hk31 HL LP (t16 p HA) H4) as (B1 & B2 & B3 & B4); assumption.
Qed.

Lemma tot_x_ct_rev2std : total (2 ^ k) (x_ct_rev2std (2 ^ k) T).
Proof. destruct (rok_omega_powers _ _ _ HT) as [H1 H2]. exact (proj1 (plain _ _ H1 H2)). Qed.
Lemma tot_x_gs_std2rev : total (2 ^ k) (x_gs_std2rev (2 ^ k) T).
Proof. destruct (rok_omega_powers _ _ _ HT) as [H1 H2]. exact (proj2 (plain _ _ H1 H2)). Qed.
Lemma tot_x_ct_std2rev : total (2 ^ k) (x_ct_std2rev (2 ^ k) T).
Proof. destruct (rok_omega_powers_rev _ _ _ HT) as [H1 H2]. exact (proj1 (rev _ _ H1 H2)). Qed.
Lemma tot_x_gs_rev2std : total (2 ^ k) (x_gs_rev2std (2 ^ k) T).
Proof. destruct (rok_omega_powers_rev _ _ _ HT) as [H1 H2]. exact (proj2 (rev _ _ H1 H2)). Qed.
Lemma tot_x_intt_ct_rev2std : total (2 ^ k) (x_intt_ct_rev2std (2 ^ k) T).
Proof. destruct (rok_inv_omega_powers _ _ _ HT) as [H1 H2]. exact (proj1 (plain _ _ H1 H2)). Qed.
Lemma tot_x_intt_gs_std2rev : total (2 ^ k) (x_intt_gs_std2rev (2 ^ k) T).
Proof. destruct (rok_inv_omega_powers _ _ _ HT) as [H1 H2]. exact (proj2 (plain _ _ H1 H2)). Qed.
Lemma tot_x_intt_ct_std2rev : total (2 ^ k) (x_intt_ct_std2rev (2 ^ k) T).
Proof. destruct (rok_inv_omega_powers_rev _ _ _ HT) as [H1 H2]. exact (proj1 (rev _ _ H1 H2)). Qed.
Lemma tot_x_intt_gs_rev2std : total (2 ^ k) (x_intt_gs_rev2std (2 ^ k) T).
Proof. destruct (rok_inv_omega_powers_rev _ _ _ HT) as [H1 H2]. exact (proj2 (rev _ _ H1 H2)). Qed.
Lemma tot_x_mulntt : total (2 ^ k) (x_mulntt_ct_std2rev (2 ^ k) T).
Proof.
  destruct (rok_mixed_rev _ _ _ HT) as [H1 H2]. intros a HL.
  exact (proj1 (proj2 (mulntt_asm_in_bounds_L k a _ Hk31 HL ltac:(rewrite (proj1 H1); lia) (t16 _ H2)))).
Qed.
Lemma tot_x_inttmul : total (2 ^ k) (x_inttmul_gs_rev2std (2 ^ k) T).
Proof.
  destruct (rok_inv_mixed_rev _ _ _ HT) as [H1 H2]. intros a HL.
  exact (proj1 (proj2 (proj2 (mulntt_asm_in_bounds_L k a _ Hk31 HL ltac:(rewrite (proj1 H1); lia) (t16 _ H2))))).
Qed.

Let M16 : mult16 (2 ^ k) := mult16_pow k Hk.
Let mulpsi : total (2 ^ k) (fun x => ModelAvx.mul_reduce_array16_asm x (2 ^ k) (red_psi_powers T)).
Proof. apply tot_mul16; [exact M16|]. exact (proj1 (proj1 (rok_psi_powers _ _ _ HT))). Qed.
Let unscale_ : total (2 ^ k) (fun x => ModelAvx.mul_reduce_array16_asm x (2 ^ k) (red_scaled_inv_psi_powers T)).
Proof. apply tot_mul16; [exact M16|]. exact (proj1 (proj1 (rok_scaled _ _ _ HT))). Qed.
Let unscale_var : total (2 ^ k) (fun x => ModelAvx.mul_reduce_array16_asm x (2 ^ k) (red_scaled_inv_psi_powers_var T)).
Proof. apply tot_mul16; [exact M16|]. exact (proj1 (proj1 (rok_scaled_var _ _ _ HT))). Qed.
Let scalar : total (2 ^ k) (fun x => ModelAvx.scalar_mul_reduce_array_asm x (2 ^ k) (rescale8 T)).
Proof. apply tot_scalar; [exact M16|]. exact (proj2 (rok_rescale8 _ _ _ HT)). Qed.

Let fwd sh f : total (2 ^ k) f -> Forall (total (2 ^ k)) [maybe_shift_asm sh (2 ^ k);
  (fun x => ModelAvx.mul_reduce_array16_asm x (2 ^ k) (red_psi_powers T)); f; fun x => ModelAvx.reduce_array_asm x (2 ^ k)].
Proof.
  intros Hf. constructor; [exact (tot_shift _ M16 sh)|]. constructor; [exact mulpsi|]. constructor; [exact Hf|].
  constructor; [exact (tot_reduce _ M16)|constructor].
Qed.
Let bwd f : total (2 ^ k) f -> Forall (total (2 ^ k)) [(fun x => ModelAvx.reduce_array_twice_asm x (2 ^ k)); f;
  (fun x => ModelAvx.mul_reduce_array16_asm x (2 ^ k) (red_scaled_inv_psi_powers T));
  (fun x => ModelAvx.reduce_array_twice_asm x (2 ^ k)); (fun x => ModelAvx.correct_asm x (2 ^ k))].
Proof.
  intros Hf. constructor; [exact (tot_twice _ M16)|]. constructor; [exact Hf|]. constructor; [exact unscale_|].
  constructor; [exact (tot_twice _ M16)|]. constructor; [exact (tot_correct _ M16)|constructor].
Qed.

Lemma quick2_asm1 sh : quick2 (2 ^ k) (red_product1_asm sh (2 ^ k) T).
Proof. exact (quick2_total _ _ _ _ (fwd sh _ tot_x_ct_std2rev) (bwd _ tot_x_intt_ct_rev2std) (tot_mulh _ M16)). Qed.
Lemma quick2_asm2 sh : quick2 (2 ^ k) (red_product2_asm sh (2 ^ k) T).
Proof. exact (quick2_total _ _ _ _ (fwd sh _ tot_x_gs_std2rev) (bwd _ tot_x_intt_ct_rev2std) (tot_mulh _ M16)). Qed.
Lemma quick2_asm3 sh : quick2 (2 ^ k) (red_product3_asm sh (2 ^ k) T).
Proof. exact (quick2_total _ _ _ _ (fwd sh _ tot_x_ct_std2rev) (bwd _ tot_x_intt_gs_rev2std) (tot_mulh _ M16)). Qed.
Lemma quick2_asm4 sh : quick2 (2 ^ k) (red_product4_asm sh (2 ^ k) T).
Proof. exact (quick2_total _ _ _ _ (fwd sh _ tot_x_gs_std2rev) (bwd _ tot_x_intt_gs_rev2std) (tot_mulh _ M16)). Qed.
Lemma quick2_asm5 sh : quick2 (2 ^ k) (red_product5_asm sh (2 ^ k) T).
Proof.
  assert (F5 : Forall (total (2 ^ k)) [maybe_shift_asm sh (2 ^ k); x_mulntt_ct_std2rev (2 ^ k) T; fun x => ModelAvx.reduce_array_asm x (2 ^ k)]).
  { constructor; [exact (tot_shift _ M16 sh)|]. constructor; [exact tot_x_mulntt|]. constructor; [exact (tot_reduce _ M16)|constructor]. }
  assert (B5 : Forall (total (2 ^ k)) [(fun x => ModelAvx.reduce_array_twice_asm x (2 ^ k)); x_inttmul_gs_rev2std (2 ^ k) T;
    (fun x => ModelAvx.scalar_mul_reduce_array_asm x (2 ^ k) (rescale8 T));
    (fun x => ModelAvx.reduce_array_twice_asm x (2 ^ k)); (fun x => ModelAvx.correct_asm x (2 ^ k))]).
  { constructor; [exact (tot_twice _ M16)|]. constructor; [exact tot_x_inttmul|]. constructor; [exact scalar|].
    constructor; [exact (tot_twice _ M16)|]. constructor; [exact (tot_correct _ M16)|constructor]. }
  exact (quick2_total _ _ _ _ F5 B5 (tot_mulh _ M16)).
Qed.
Lemma quick2_asm24 : quick2 (2 ^ k) (red1024_product1_asm (2 ^ k) T).
Proof.
  assert (F1 : Forall (total (2 ^ k)) [(fun x => ModelAvx.mul_reduce_array16_asm x (2 ^ k) (red_psi_powers T));
    x_ct_std2rev (2 ^ k) T; fun x => ModelAvx.reduce_array_asm x (2 ^ k)]).
  { constructor; [exact mulpsi|]. constructor; [exact tot_x_ct_std2rev|]. constructor; [exact (tot_reduce _ M16)|constructor]. }
  assert (B1 : Forall (total (2 ^ k)) [x_intt_ct_rev2std (2 ^ k) T;
    (fun x => ModelAvx.mul_reduce_array16_asm x (2 ^ k) (red_scaled_inv_psi_powers_var T));
    (fun x => ModelAvx.reduce_array_twice_asm x (2 ^ k)); (fun x => ModelAvx.correct_asm x (2 ^ k))]).
  { constructor; [exact tot_x_intt_ct_rev2std|]. constructor; [exact unscale_var|].
    constructor; [exact (tot_twice _ M16)|]. constructor; [exact (tot_correct _ M16)|constructor]. }
  exact (quick2_total _ _ _ _ F1 B1 (tot_mulh _ M16)).
Qed.

Lemma asm_quick X sh : f_ct_rev2std X = x_ct_rev2std (2 ^ k) T -> f_gs_rev2std X = x_gs_rev2std (2 ^ k) T ->
  f_ct_std2rev X = x_ct_std2rev (2 ^ k) T -> f_gs_std2rev X = x_gs_std2rev (2 ^ k) T ->
  f_intt_ct_rev2std X = x_intt_ct_rev2std (2 ^ k) T -> f_intt_gs_rev2std X = x_intt_gs_rev2std (2 ^ k) T ->
  f_intt_ct_std2rev X = x_intt_ct_std2rev (2 ^ k) T -> f_intt_gs_std2rev X = x_intt_gs_std2rev (2 ^ k) T ->
  quick2 (2 ^ k) (f_product1 X) -> f_product2 X = red_product2_asm sh (2 ^ k) T ->
  f_product3 X = red_product3_asm sh (2 ^ k) T -> f_product4 X = red_product4_asm sh (2 ^ k) T ->
  f_product5 X = red_product5_asm sh (2 ^ k) T ->
  forall clk stk, (forall p, zlen (stk p) = 2 ^ k) -> speed_tests clk stk (2 ^ k) X = Ok tt.
Proof.
  intros A1 A2 A3 A4 A5 A6 A7 A8 Q1 E2 E3 E4 E5 clk stk Hs.
  assert (HN := pow_u32 k ltac:(lia)). apply speed_tests_ok; [lia|exact Hs| |].
  - rewrite A1, A2, A3, A4, A5, A6, A7, A8.
    split; [exact (quick_total _ _ tot_x_ct_rev2std)|]. split; [exact (quick_total _ _ tot_x_gs_rev2std)|].
    split; [exact (quick_total _ _ tot_x_ct_std2rev)|]. split; [exact (quick_total _ _ tot_x_gs_std2rev)|].
    split; [exact (quick_total _ _ tot_x_intt_ct_rev2std)|]. split; [exact (quick_total _ _ tot_x_intt_gs_rev2std)|].
    split; [exact (quick_total _ _ tot_x_intt_ct_std2rev)|]. exact (quick_total _ _ tot_x_intt_gs_std2rev).
  - rewrite E2, E3, E4, E5. split; [exact Q1|]. split; [exact (quick2_asm2 sh)|]. split; [exact (quick2_asm3 sh)|].
    split; [exact (quick2_asm4 sh)|exact (quick2_asm5 sh)].
Qed.
End AsmTotal.

(** The sixteen equations of [asm_quick] and the transforms hypothesis of [red_tests_ok]. *)
Lemma asm_transforms k psi T : 4 <= k <= 10 -> eqQ (psi ^ (2 ^ k)) (-1) -> red_tables_ok k psi T ->
  let tr := trans k (-21499) 21499 (- 2 ^ 31) (2 ^ 31 - 1) in
  tr false (psi ^ 2) (x_ct_rev2std (2 ^ k) T) /\ tr false (psi ^ 2) (x_gs_rev2std (2 ^ k) T)
  /\ tr true (psi ^ 2) (x_ct_std2rev (2 ^ k) T) /\ tr true (psi ^ 2) (x_gs_std2rev (2 ^ k) T)
  /\ tr false (r_inv_psi T ^ 2) (x_intt_ct_rev2std (2 ^ k) T) /\ tr false (r_inv_psi T ^ 2) (x_intt_gs_rev2std (2 ^ k) T)
  /\ tr true (r_inv_psi T ^ 2) (x_intt_ct_std2rev (2 ^ k) T) /\ tr true (r_inv_psi T ^ 2) (x_intt_gs_std2rev (2 ^ k) T).
Proof.
  intros Hk Hroot HT. unfold trans. cbv zeta.
  split; [exact (t_x_ct_rev2std k psi T Hk Hroot HT)|]. split; [exact (t_x_gs_rev2std k psi T Hk Hroot HT)|].
  split; [exact (t_x_ct_std2rev k psi T Hk Hroot HT)|]. split; [exact (t_x_gs_std2rev k psi T Hk Hroot HT)|].
  split; [exact (t_x_intt_ct_rev2std k psi T Hk Hroot HT)|]. split; [exact (t_x_intt_gs_rev2std k psi T Hk Hroot HT)|].
  split; [exact (t_x_intt_ct_std2rev k psi T Hk Hroot HT)|]. exact (t_x_intt_gs_std2rev k psi T Hk Hroot HT).
Qed.

Lemma test_ntt_red_asm_main_ok_L :
  forall malloc size psi T m bt rnd clk stk avx2 shi sh, (forall n, 0 <= n -> zlen (malloc n) = n) ->
  make_red_tables malloc size psi = Ok (Written T) -> 16 <= size <= 1024 -> make_bitrev_table size = Ok (Written (m, bt)) ->
  (forall i, 0 <= rnd i < 2 ^ 31) -> (forall p, zlen (stk p) = size) ->
  test_ntt_red_asm_main avx2 shi sh rnd clk stk size T bt m = Ok 0.
Proof.
  intros malloc size psi T m bt rnd clk stk avx2 shi sh HM E Hle Eb Hr Hs.
  assert (HP := asm_products_correct_L malloc size psi T sh HM E Hle).
  destruct (gen_red_tables _ _ _ _ HM E) as (k & Hk & Hsz & Hroot & HT).
  assert (Hk10 : 4 <= k <= 10) by (apply size_ge; [exact Hk|lia]).
  unfold test_ntt_red_asm_main. destruct avx2; [|reflexivity]. unfold main.
  destruct (red_tests_ok k psi T size malloc m bt rnd stk (asm_functions size T sh) shi) as [r ->].
  - lia.
  - exact Hsz.
  - exact Hroot.
  - exact HT.
  - exact Eb.
  - exact HM.
  - exact Hr.
  - exact Hs.
  - reflexivity.
  - reflexivity.
  - subst size. exact (asm_transforms k psi T Hk10 Hroot HT).
  - exact HP.
  - cbn [bind]. subst size.
    rewrite (asm_quick k psi T Hk10 HT (asm_functions (2 ^ k) T sh) sh) by first [exact Hs | exact (quick2_asm1 k psi T Hk10 HT sh) | reflexivity].
    reflexivity.
Qed.

Lemma test_ntt_red_asm1024_main_ok_L :
  forall malloc T m bt rnd clk stk avx2, (forall n, 0 <= n -> zlen (malloc n) = n) ->
  make_red_tables malloc 1024 1014 = Ok (Written T) -> make_bitrev_table 1024 = Ok (Written (m, bt)) ->
  (forall i, 0 <= rnd i < 2 ^ 31) -> (forall p, zlen (stk p) = 1024) ->
  test_ntt_red_asm1024_main avx2 rnd clk stk T bt m = Ok 0.
Proof.
  intros malloc T m bt rnd clk stk avx2 HM E Eb Hr Hs.
  assert (HP := asm_products_correct_L malloc 1024 1014 T false HM E ltac:(lia)).
  assert (HP1 := asm1024_product1_correct_L malloc T HM E).
  destruct (gen_red_tables _ _ _ _ HM E) as (k & Hk & Hsz & Hroot & HT).
  assert (Hk10 : 4 <= k <= 10) by (apply size_ge; [exact Hk|lia]).
  unfold test_ntt_red_asm1024_main. destruct avx2; [|reflexivity]. unfold main.
  destruct (red_tests_ok k 1014 T 1024 malloc m bt rnd stk (asm1024_functions 1024 T) false) as [r ->].
  - lia.
  - exact Hsz.
  - exact Hroot.
  - exact HT.
  - exact Eb.
  - exact HM.
  - exact Hr.
  - exact Hs.
  - reflexivity.
  - reflexivity.
  - rewrite Hsz. exact (asm_transforms k 1014 T Hk10 Hroot HT).
  - intros f [<-|HI]; [exact HP1|]. exact (HP f (or_intror HI)).
  - cbn [bind]. rewrite Hsz in Hs |- *.
    rewrite (asm_quick k 1014 T Hk10 HT (asm1024_functions (2 ^ k) T) false) by first [exact Hs | exact (quick2_asm24 k 1014 T Hk10 HT) | reflexivity].
    reflexivity.
Qed.

(** ** The speed tests of the versions of test_ntt_red16.c *)

Lemma loop_err {S} (J : Z -> S -> Prop) n N body (st : S) e : 0 <= N < n -> n < 4294967296 -> J 0 st ->
  (forall i st, 0 <= i < N -> J i st -> exists st', body i st = Ok st' /\ J (i + 1) st') ->
  (forall st, J N st -> body N st = Err e) -> loop n body st = Err e.
Proof.
  intros HN Hn H0 Hb He. unfold loop.
  assert (G : forall f c st, 0 <= c <= N -> (Z.to_nat (N - c) < f)%nat -> J c st ->
    cfor f c (fun i => i <? n) (fun i => u32 (i + 1)) body st = Err e).
  { induction f as [|f IH]; intros c st' Hc Hf HJ; [lia|]. cbn [cfor].
    destruct (Z.ltb_spec c n); [|lia]. destruct (Z.eq_dec c N) as [->|Hne].
    - rewrite (He _ HJ). reflexivity.
    - destruct (Hb c st') as (s2 & -> & HJ2); [lia|exact HJ|]. cbn [bind]. rewrite u32_small by lia.
      apply IH; [lia|lia|exact HJ2]. }
  apply G; [lia|unfold fuel; lia|exact H0].
Qed.

(** [m] calls of [f] on the same array *)
Fixpoint calls (f : list Z -> res (list Z)) (m : nat) (a : list Z) : res (list Z) :=
  match m with O => Ok a | S m => do b <- calls f m a; f b end.
(** The array of the speed tests, a[i] = i *)
Definition iota16 : list Z := [0; 1; 2; 3; 4; 5; 6; 7; 8; 9; 10; 11; 12; 13; 14; 15].

Lemma calls_prefix f a : forall (m p : nat) r, (p <= m)%nat -> calls f m a = Ok r -> exists q, calls f p a = Ok q.
Proof.
  induction m as [|m IH]; intros p r Hp E.
  - replace p with O by lia. eauto.
  - destruct (Nat.eq_dec p (S m)) as [->|Hne]; [eauto|]. cbn [calls] in E.
    destruct (calls f m a) as [b|] eqn:Eb; [|discriminate]. apply (IH p b); [lia|exact eq_refl].
Qed.

(** The array after eleven calls of ntt_red16_ct_rev2std *)
Definition eleventh16 : list Z :=
  [125829120; 1435915922; -1070805902; 709202179; -389519219; -993236260; -883496252; -711186789; 1325288216; 705014196;
   -45236440; 658616529; -411536025; -408436066; -474112826; 427699617].
Lemma red16_eleven : exists r, calls (r_ct_rev2std 16 R16) 11 iota16 = Ok r /\ r_ct_rev2std 16 R16 r = Err SignedOverflow.
Proof. exists eleventh16. split; vm_compute; reflexivity. Qed.

Lemma speed_test_err clk stk f t c : zlen (stk 0) = 16 -> zlen t = NTESTS ->
  (exists r, calls f 11 iota16 = Ok r /\ f r = Err SignedOverflow) -> speed_test clk stk 16 f t c = Err SignedOverflow.
Proof.
  intros Hs HL (r & E11 & Ef). unfold speed_test.
  destruct (fill_ok 16 (stk 0) (fun i => i) (fun i a => wr a i (to_i32 i))) as (a & E & La & Va).
  - lia.
  - exact Hs.
  - intros i b Hi _. rewrite to_i32_small by lia. reflexivity.
  - assert (Ea : a = iota16).
    { apply Loops.list_ext; [exact La|]. intros i Hi. rewrite La in Hi. rewrite Va by exact Hi.
      assert (D : i = 0 \/ i = 1 \/ i = 2 \/ i = 3 \/ i = 4 \/ i = 5 \/ i = 6 \/ i = 7 \/ i = 8 \/ i = 9 \/ i = 10
        \/ i = 11 \/ i = 12 \/ i = 13 \/ i = 14 \/ i = 15) by lia.
      repeat (destruct D as [->|D]; [reflexivity|]). subst i. reflexivity. }
    rewrite E. cbn [bind]. rewrite Ea. clear - HL E11 Ef. assert (HN := NTESTS_range). assert (HN11 : 11 < NTESTS) by reflexivity.
    match goal with |- context [loop NTESTS ?B ?s0] =>
      rewrite (loop_err (fun i (s : list Z * list Z * Z) => zlen (fst (fst s)) = NTESTS
        /\ calls f (Z.to_nat i) iota16 = Ok (snd (fst s))) NTESTS 11 B s0 SignedOverflow) end.
    + reflexivity.
    + split; [discriminate|exact HN11].
    + exact (proj2 HN).
    + cbn [fst snd]. split; [exact HL|reflexivity].
    + intros i [[u b] d] Hi [Lu Pb]. cbn [fst snd] in *. rewrite wr_ok by lia. cbn [bind].
      destruct (calls_prefix f iota16 11 (S (Z.to_nat i)) r ltac:(lia) E11) as [q Eq].
      assert (Eq' := Eq). cbn [calls] in Eq'. rewrite Pb in Eq'. cbn [bind] in Eq'. rewrite Eq'. cbn [bind].
      eexists. split; [reflexivity|]. cbn [fst snd]. rewrite aset_len. split; [exact Lu|].
      replace (Z.to_nat (i + 1)) with (S (Z.to_nat i)) by lia. exact Eq.
    + intros [[u b] d] [Lu Pb]. cbn [fst snd] in *. change (Z.to_nat 11) with 11%nat in Pb. rewrite E11 in Pb.
      injection Pb as <-. rewrite wr_ok by (unfold NTESTS in *; lia). cbn [bind]. rewrite Ef. reflexivity.
Qed.

Lemma test_ntt_red16_main_refuted_L :
  forall malloc T m bt rnd clk stk shi sh, (forall n, 0 <= n -> zlen (malloc n) = n) ->
  make_red_tables malloc 16 1212 = Ok (Written T) -> make_bitrev_table 16 = Ok (Written (m, bt)) ->
  (forall i, 0 <= rnd i < 2 ^ 31) -> (forall p, zlen (stk p) = 16) ->
  test_ntt_red_main shi sh rnd clk stk 16 T bt m = Err SignedOverflow.
Proof.
  intros malloc T m bt rnd clk stk shi sh HM E Eb Hr Hs.
  rewrite (make_red_tables_memory_independent_L malloc malloc77 16 1212 HM malloc77_len), R16_made in E.
  injection E as <-. unfold test_ntt_red_main, main.
  destruct (test_ntt_red_tests_ok_L malloc77 16 1212 R16 m bt rnd stk shi sh malloc77_len R16_made
    ltac:(lia) Eb Hr Hs) as [r ->]. cbn [bind].
  unfold speed_tests. cbn [red_functions f_ct_rev2std].
  rewrite speed_test_err; [reflexivity|apply Hs| |exact red16_eleven].
  unfold zlen. rewrite repeat_length. apply Z2Nat.id. exact (proj1 NTESTS_range).
Qed.

(** ** Examples *)

Definition ex_rnd (i : Z) : Z := (i * 7919 + 13) mod 2 ^ 31.
Definition ex_clk (i : Z) : Z := 100 * i.
Definition ex_stk : heap := fun _ => repeat 5 16.
Definition ex_stk1024 : heap := fun _ => repeat 5 1024.

Lemma ex_rnd_range i : 0 <= ex_rnd i < 2 ^ 31.
Proof. apply Z.mod_pos_bound. reflexivity. Qed.
Lemma ex_stk_len p : zlen (ex_stk p) = 16.
Proof. reflexivity. Qed.
Lemma ex_stk1024_len p : zlen (ex_stk1024 p) = 1024.
Proof. unfold ex_stk1024, zlen. rewrite repeat_length. reflexivity. Qed.

Lemma ex_main16 : test_ntt_main ex_rnd ex_clk ex_stk 16 T16 bitrev16 BITREV16_NPAIRS = Ok 0.
Proof.
  exact (test_ntt_main_ok_L malloc77 16 1212 T16 BITREV16_NPAIRS bitrev16 ex_rnd ex_clk ex_stk malloc77_len T16_made
    (proj1 committed_bitrev_tables_L) ex_rnd_range ex_stk_len).
Qed.

Lemma test_ntt_main_eq rnd clk stk n T bt m :
  test_ntt_main rnd clk stk n T bt m = main rnd clk stk n bt m (default_variant n T) (default_functions n T).
Proof. reflexivity. Qed.
Lemma ex_run16 : main ex_rnd ex_clk ex_stk 16 bitrev16 BITREV16_NPAIRS (default_variant 16 T16) (default_functions 16 T16) = Ok 0.
Proof. rewrite <- test_ntt_main_eq. exact ex_main16. Qed.

Lemma ex_transform_len a r : zlen a = 16 -> all_in 0 (Q - 1) a ->
  (do a <- Ok a; do a <- (do a <- n_ct_std2rev 16 T16 a; shuffle_with_table a bitrev16 BITREV16_NPAIRS); Ok a) = Ok r ->
  zlen r = 16.
Proof.
  intros La Ha E. cbn [bind] in E.
  destruct (gen_tables _ _ _ _ malloc77_len T16_made) as (k & Hk & Hsz & Hroot & HT).
  destruct (t_n_ct_std2rev k 1212 T16 ltac:(lia) Hroot HT a ltac:(lia) Ha) as (y & Ey & Ly & _).
  rewrite <- Hsz in Ey. rewrite Ey in E. cbn [bind] in E.
  destruct (shuffle_ok 16 BITREV16_NPAIRS bitrev16 k (proj1 committed_bitrev_tables_L) Hsz Hk y Ly) as (z & Ez & Lz & _).
  rewrite Ez in E. cbn [bind] in E. injection E as <-. lia.
Qed.

(** X^3, as an array of length 16 *)
Definition cube16 : list Z := [0; 0; 0; 1; 0; 0; 0; 0; 0; 0; 0; 0; 0; 0; 0; 0].
Lemma cube16_at i : 0 <= i < 16 -> at_ cube16 i = if i =? 3 then 1 else 0.
Proof.
  intros Hi. assert (D : i = 0 \/ i = 1 \/ i = 2 \/ i = 3 \/ i = 4 \/ i = 5 \/ i = 6 \/ i = 7 \/ i = 8 \/ i = 9 \/ i = 10
    \/ i = 11 \/ i = 12 \/ i = 13 \/ i = 14 \/ i = 15) by lia.
  repeat (destruct D as [->|D]; [reflexivity|]). subst i. reflexivity.
Qed.
Lemma le16 : 16 <= 16 <= 1024.
Proof. lia. Qed.
