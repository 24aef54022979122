(** test_naive_ntt16.c, ..., test_naive_ntt1024.c with any tables: returning 0 certifies everything. *)

From Coq Require Import ZArith List Bool Lia Setoid Morphisms.
From Verif Require Import CSem Spec Loops ModQ Conv HeapElem NttElem NaiveElem AvxArrays ModelNtt ModelNaive ModelGen ModelProducts ElemFinal
  ProdFinal ShuffleFinal Shuffle LinRed BasisElem LinNtt LinNaive TestsElem TestsSound ModelTests TestsFinal TestsLin TestsAll.
Import Spec.
Import ListNotations.
Open Scope Z_scope.

(** bitrev_shuffle, whatever the array contains *)
Lemma shuffle_lmap k lo hi : 0 <= k <= 31 -> lmap (2 ^ k) lo hi lo hi (fun a => bitrev_shuffle a (2 ^ k)).
Proof.
  intros Hk. exists (fun i x => if x =? bitrev k i then 1 else 0). intros a La Ia.
  destruct (bitrev_shuffle_ok k a Hk La) as (r & E & Lr & V). exists r. split; [exact E|]. split; [exact Lr|]. split.
  - apply all_in_of. intros i Hi. rewrite V by lia. apply (all_in_at lo hi); [exact Ia|]. rewrite La. apply bitrev_range. lia.
  - intros i Hi. assert (B := bitrev_range k i ltac:(lia)). rewrite V by exact Hi. unfold lin.
    symmetry. rewrite (Sum_single (2 ^ k) (bitrev k i) _ B).
    + rewrite Z.eqb_refl. qring.
    + intros x Hx Hne. apply Z.eqb_neq in Hne. rewrite Hne. reflexivity.
Qed.

Lemma lmap_ext n lo hi lo' hi' V W : (forall a, zlen a = n -> V a = W a) -> lmap n lo hi lo' hi' W -> lmap n lo hi lo' hi' V.
Proof. intros H [F HF]. exists F. intros a La Ia. rewrite H by exact La. exact (HF a La Ia). Qed.

Lemma lmap_id n lo hi : lmap n lo hi lo hi (fun a => Ok a).
Proof.
  exists (fun i x => if x =? i then 1 else 0). intros a La Ia. exists a. split; [reflexivity|]. split; [exact La|]. split; [exact Ia|].
  intros i Hi. unfold lin. symmetry. rewrite (Sum_single n i _ Hi); [rewrite Z.eqb_refl; qring|].
  intros x Hx Hne. apply Z.eqb_neq in Hne. rewrite Hne. reflexivity.
Qed.

(** ntt_normalize *)
Lemma ntt_normalize_lmap n : 0 <= n < 2 ^ 32 ->
  forall a, zlen a = n -> all_in (- (Q - 1)) (Q - 1) a ->
  exists r, ntt_normalize a n = Ok r /\ zlen r = n /\ forall i, 0 <= i < n -> at_ r i = at_ a i mod Q.
Proof.
  intros Hn32 a HL Ha. change (2 ^ 32) with 4294967296 in Hn32. unfold ntt_normalize.
  assert (Hv : forall i, 0 <= i < n -> -12288 <= at_ a i <= 12288).
  { intros i Hi. assert (HI := all_in_at _ _ _ i Ha ltac:(lia)). unfold Q in HI. lia. }
  match goal with |- context [loop n ?B a] =>
    destruct (loop_ok (fun c b => zlen b = n /\ (forall i, 0 <= i < c -> at_ b i = at_ a i mod Q)
       /\ forall i, c <= i < n -> at_ b i = at_ a i) n B a) as (r & E & L & R & _) end.
  - lia.
  - split; [exact HL|]. split; intros; [lia|reflexivity].
  - intros i b Hi (Lb & R1 & R2). rewrite rd_ok by lia. cbn [bind]. rewrite R2 by lia. specialize (Hv i Hi).
    destruct (Z.ltb_spec (at_ a i) 0).
    + unfold add32. change ModelTests.Q with 12289. rewrite i32_ok by lia. cbn [bind]. rewrite wr_ok by lia.
      eexists. split; [reflexivity|]. rewrite aset_len. split; [exact Lb|]. split; intros m Hm.
      * destruct (Z.eq_dec m i) as [->|].
        -- rewrite at_aset_same by lia. unfold Q. apply (Z.mod_unique_pos _ _ (-1)); lia.
        -- rewrite at_aset_other by lia. apply R1. lia.
      * rewrite at_aset_other by lia. apply R2. lia.
    + eexists. split; [reflexivity|]. split; [exact Lb|]. split; intros m Hm.
      * destruct (Z.eq_dec m i) as [->|].
        -- rewrite R2 by lia. symmetry. apply Z.mod_small. unfold Q. lia.
        -- apply R1. lia.
      * apply R2. lia.
  - eauto.
Qed.

(** A program whose functions are linear and brought to 0 .. Q-1 before they are checked *)
Section General.
Variables (rnd : Z -> Z) (stk : heap) (n k : Z) (bt : list (Z * Z)) (np : Z) (V : variant) (X : functions).
Hypothesis Hk : 1 <= k <= 15.
Hypothesis En : n = 2 ^ k.
Hypothesis Ls : forall p, zlen (stk p) = n.
Hypothesis Ho : 0 <= f_omega X < Q.
Hypothesis Hi : 0 <= f_inv_omega X < Q.
Variable r0 : Z.
Hypothesis HM : tests rnd stk n bt np V X 0 = Ok r0.

Let Hn : 2 <= n <= 32768.
Proof. rewrite En. change 2 with (2 ^ 1) at 1. change 32768 with (2 ^ 15). split; apply Z.pow_le_mono_r; lia. Qed.
Let Hn31 : 0 < n < 2 ^ 31.
Proof. change (2 ^ 31) with 2147483648. lia. Qed.

Lemma certify_transform f omega s2r : In (f, omega, s2r)
     [(f_ct_rev2std X, f_omega X, false); (f_gs_rev2std X, f_omega X, false);
      (f_ct_std2rev X, f_omega X, true); (f_gs_std2rev X, f_omega X, true);
      (f_intt_ct_rev2std X, f_inv_omega X, false); (f_intt_gs_rev2std X, f_inv_omega X, false);
      (f_intt_ct_std2rev X, f_inv_omega X, true); (f_intt_gs_std2rev X, f_inv_omega X, true)] ->
  let run := fun a => do a <- before V a;
    do a <- (if s2r : bool then do a <- f a; shuffle_with_table a bt np else do a <- shuffle_with_table a bt np; f a);
    after V a in
  lmap n 0 (Q - 1) 0 (Q - 1) run ->
  eqQ (omega ^ (n / 2)) (-1)
  /\ forall a, zlen a = n -> all_in 0 (Q - 1) a ->
      exists r, run a = Ok r /\ zlen r = n /\ forall i, 0 <= i < n -> at_ r i = NTT n omega (at_ a) i mod Q.
Proof.
  intros Hf run HR.
  assert (HC' : forall j a, 0 <= j < n -> zlen a = n -> (forall i, 0 <= i < n -> at_ a i = if i =? j then 1 else 0) ->
    exists r r2, run a = Ok r /\ (forall i, 0 <= i < n -> at_ r i = NTT n omega (at_ a) i mod Q) /\ run r = Ok r2
    /\ forall i, 0 <= i < n -> if (i + j) mod n =? 0 then at_ r2 i mod 2 ^ 32 = n else at_ r2 i = 0).
  { intros j a Hj La Va. destruct (tests_parts _ _ _ _ _ _ _ _ _ HM) as (HT & _).
    assert (ER : forall x, apply_ntt bt np V x f s2r = run x).
    { intros x. unfold apply_ntt, run, ntt_bitrev_shuffle. destruct s2r; destruct (before V x); cbn [bind]; try reflexivity.
      - destruct (f _); cbn [bind]; reflexivity.
      - destruct (shuffle_with_table _ _ _); cbn [bind]; reflexivity. }
    assert (Hom : 0 <= omega < Q).
    { clear - Hf Ho Hi. repeat (destruct Hf as [Hf|Hf]; [injection Hf as _ <- _; assumption|]). destruct Hf. }
    destruct (test_simple_polys_inv stk n bt np V f omega s2r ltac:(lia) Hom (Ls 0)) with (j := j) (a := a) as (r & r2 & E1 & E2 & E3 & E4).
    - intros b r Lb Ib Eb. rewrite ER in Eb. destruct HR as [F HF].
      destruct (HF b Lb Ib) as (r' & E' & L' & _). rewrite Eb in E'. injection E' as <-. exact L'.
    - exact (HT _ _ _ Hf).
    - exact Hj.
    - exact La.
    - exact Va.
    - rewrite ER in E1, E3. eauto 8. }
  assert (HA := lmap_all n 0 (Q - 1) 0 (Q - 1) run omega ltac:(lia) ltac:(lia) ltac:(unfold Q; lia) HR).
  assert (HA' := HA ltac:(intros j a Hj La Va; destruct (HC' j a Hj La Va) as (r & r2 & E1 & V1 & _); exists r; split; [exact E1|];
    intros i I; rewrite (V1 i I); apply eqQ_modn)). clear HA.
  split.
  - rewrite En. replace (2 ^ k / 2) with (2 ^ (k - 1)).
    2:{ replace (2 ^ k) with (2 ^ (k - 1) * 2) by (rewrite Z.mul_comm, <- Z.pow_succ_r by lia; f_equal; lia).
        rewrite Z.div_mul by lia. reflexivity. }
    apply primitive_of_sums; [lia|]. rewrite <- En. intros i I.
    destruct (unit_array n 0 ltac:(lia)) as (u & Lu & Iu & Vu).
    destruct (HC' 0 u ltac:(lia) Lu Vu) as (r & r2 & E1 & V1 & E2 & V2).
    destruct HR as [F HF]. destruct (HF u Lu Iu) as (r' & E1' & Lr & Ir & _). rewrite E1 in E1'. injection E1' as <-.
    destruct (HA' r Lr Ir) as (r2' & E2' & _ & _ & W2). rewrite E2 in E2'. injection E2' as <-.
    specialize (W2 i ltac:(lia)). specialize (V2 i ltac:(lia)). rewrite Z.add_0_r, Z.mod_small in V2 by lia.
    destruct (Z.eqb_spec i 0); [lia|]. rewrite V2 in W2. rewrite W2.
    unfold NTT. apply Sum_extQ. intros m Hm. rewrite V1 by exact Hm. rewrite eqQ_modn. unfold NTT.
    rewrite (Sum_single n 0 _ ltac:(lia)); [rewrite Vu by lia; rewrite Z.eqb_refl, Z.mul_0_l; reflexivity|].
    intros x Hx Hne. rewrite Vu by exact Hx. apply Z.eqb_neq in Hne. rewrite Hne. reflexivity.
  - intros a La Ia. destruct (HA' a La Ia) as (r & E & Lr & Ir & VV). exists r.
    split; [exact E|]. split; [exact Lr|].
    intros i I. apply nega_mod_ext; [exact (VV i I)|]. assert (B := all_in_at _ _ _ i Ir ltac:(lia)). lia.
Qed.

Lemma certify_product f lo' hi' : In f [f_product1 X; f_product2 X; f_product3 X; f_product4 X; f_product5 X] ->
  bmap n 0 (Q - 1) lo' hi' f ->
  (forall c, zlen c = n -> all_in lo' hi' c -> exists r, after_product V c = Ok r /\ zlen r = n /\ forall i, 0 <= i < n -> at_ r i = at_ c i mod Q) ->
  forall h c a b, a <> b -> zlen (h c) = n -> zlen (h a) = n -> zlen (h b) = n ->
  all_in 0 (Q - 1) (h a) -> all_in 0 (Q - 1) (h b) ->
  exists h', f h c a b = Ok h' /\ zlen (h' c) = n /\ all_in lo' hi' (h' c)
        /\ forall t, 0 <= t < n -> eqQ (at_ (h' c) t) (negacyclic n (at_ (h a)) (at_ (h b)) t).
Proof.
  intros Hf HP HV.
  apply (bmap_all n 0 (Q - 1) lo' hi' f stk ltac:(lia) ltac:(lia) ltac:(unfold Q; lia) HP (Ls 2)).
  intros i m x y Hx Hy Lx Ly Vx Vy.
  destruct (tests_parts _ _ _ _ _ _ _ _ _ HM) as (_ & _ & HT).
  destruct (test_simple_products_inv stk n V f ltac:(lia) Ls (HT f Hf) i m x y Hx Hy Lx Ly Vx Vy) as (h' & c' & E & E2 & VV).
  exists h'. split; [exact E|]. intros t Ht.
  destruct HP as [K HK]. destruct (HK (hset (hset stk 0 x) 1 y) 2 0 1) as (h2 & Eh & Lh & Ih & _); try discriminate;
    [apply Ls|exact Lx|exact Ly|change (hset (hset stk 0 x) 1 y 0) with x|change (hset (hset stk 0 x) 1 y 1) with y|].
  - apply all_in_of. intros j Hj. rewrite Vx by lia. unfold Q. destruct (j =? i); lia.
  - apply all_in_of. intros j Hj. rewrite Vy by lia. unfold Q. destruct (j =? m); lia.
  - rewrite E in Eh. injection Eh as <-. destruct (HV _ Lh Ih) as (c2 & E3 & _ & V3). rewrite E2 in E3. injection E3 as <-.
    assert (Y := VV t Ht). rewrite (V3 t Ht) in Y. exact Y.
Qed.
End General.

Lemma normalize_step n : 0 <= n < 2 ^ 32 -> lmap n (- (Q - 1)) (Q - 1) 0 (Q - 1) (fun a => ntt_normalize a n).
Proof.
  intros Hn. exists (fun i x => if x =? i then 1 else 0). intros a La Ia. destruct (ntt_normalize_lmap n Hn a La Ia) as (r & E & Lr & V).
  exists r. split; [exact E|]. split; [exact Lr|]. split; [exact (canon_in n _ r Lr V)|]. intros i Hi. rewrite V by exact Hi. rewrite eqQ_modn.
  unfold lin. symmetry. rewrite (Sum_single n i _ Hi); [rewrite Z.eqb_refl; qring|].
  intros x Hx Hne. apply Z.eqb_neq in Hne. rewrite Hne. reflexivity.
Qed.

Section Naive.
Variables (k n : Z) (T : tables) (bt : list (Z * Z)) (np : Z).
Hypothesis Hk : 1 <= k <= 15.
Hypothesis En : n = 2 ^ k.
Hypothesis HT : canonical_tables n T.
Hypothesis HB : make_bitrev_table n = Ok (Written (np, bt)).

Let Hk31 : 0 <= k <= 31.
Proof. lia. Qed.
Let Hn : 2 <= n <= 32768.
Proof. rewrite En. change 2 with (2 ^ 1) at 1. change 32768 with (2 ^ 15). split; apply Z.pow_le_mono_r; lia. Qed.
Let Hn32 : 0 <= n < 2 ^ 32.
Proof. change (2 ^ 32) with 4294967296. lia. Qed.

Lemma swt_lmap lo hi : lmap n lo hi lo hi (fun a => shuffle_with_table a bt np).
Proof.
  destruct (bitrev_table_shuffle_agrees_L _ _ _ HB) as (_ & _ & H).
  apply (lmap_ext n lo hi lo hi _ (fun a => bitrev_shuffle a n)).
  - intros a La. destruct (H a La) as (r & -> & ->). reflexivity.
  - rewrite En. apply shuffle_lmap. exact Hk31.
Qed.

Lemma vtr_lmap f i : In f
    [ntt_ct_rev2std_naive; mulntt_ct_rev2std_naive; ntt_ct_std2rev_naive; mulntt_ct_std2rev_naive;
     ntt_gs_rev2std_naive; nttmul_gs_rev2std_naive; ntt_gs_std2rev_naive; nttmul_gs_std2rev_naive] ->
  In i [psi_powers T; scaled_inv_psi_powers T; omega_powers T; omega_powers_rev T; inv_omega_powers T;
      inv_omega_powers_rev T; mixed_powers T; mixed_powers_rev T; inv_mixed_powers T; inv_mixed_powers_rev T] ->
  lmap n (- (Q - 1)) (Q - 1) (- (Q - 1)) (Q - 1) (fun a => f a n i 12289).
Proof.
  intros Hf Hi. destruct (tab_ok k n T En HT i Hi) as [L I]. rewrite En. apply naive_transform_lmap; assumption.
Qed.

Lemma vmul_lmap i :
  In i [psi_powers T; scaled_inv_psi_powers T; omega_powers T; omega_powers_rev T; inv_omega_powers T;
      inv_omega_powers_rev T; mixed_powers T; mixed_powers_rev T; inv_mixed_powers T; inv_mixed_powers_rev T] ->
  lmap n (- (Q - 1)) (Q - 1) (- (Q - 1)) (Q - 1) (fun a => mul_array16_naive a n i 12289).
Proof.
  intros Hi. destruct (tab_ok k n T En HT i Hi) as [L I]. rewrite En. apply mul_array16_naive_lmap; assumption.
Qed.

Ltac inl := solve [repeat (try (left; reflexivity); right)].
Ltac trl := solve [apply vtr_lmap; inl].

Lemma vall_lmap f omega s2r : In (f, omega, s2r)
     [(v_ct_rev2std n T, t_omega T, false); (v_gs_rev2std n T, t_omega T, false);
      (v_ct_std2rev n T, t_omega T, true); (v_gs_std2rev n T, t_omega T, true);
      (v_intt_ct_rev2std n T, t_inv_omega T, false); (v_intt_gs_rev2std n T, t_inv_omega T, false);
      (v_intt_ct_std2rev n T, t_inv_omega T, true); (v_intt_gs_std2rev n T, t_inv_omega T, true)] ->
  lmap n (- (Q - 1)) (Q - 1) (- (Q - 1)) (Q - 1) f.
Proof.
  intros H. cbn [In] in H.
  repeat (destruct H as [H|H]; [injection H as <- _ _;
    unfold v_ct_rev2std, v_gs_rev2std, v_ct_std2rev, v_gs_std2rev, v_intt_ct_rev2std, v_intt_gs_rev2std, v_intt_ct_std2rev,
      v_intt_gs_std2rev; trl|]). destruct H.
Qed.

Lemma vprod_bmap f : In f [naive_product1 n T; naive_product2 n T; naive_product3 n T; naive_product4 n T; naive_product5 n T] ->
  bmap n 0 (Q - 1) (- (Q - 1)) (Q - 1) f.
Proof.
  intros H. set (vl := lmap n (- (Q - 1)) (Q - 1) (- (Q - 1)) (Q - 1)).
  assert (HM := mul_array_naive_mul_ok n Hn32).
  assert (W : forall A, vl A -> lmap n 0 (Q - 1) (- (Q - 1)) (Q - 1) A).
  { intros A HA. apply (lmap_weaken _ _ _ _ _ _ _ _ _ _ HA); unfold Q; lia. }
  assert (G4 : forall A B C D P, vl A -> vl B -> vl C -> vl D ->
    (forall h c a b, P h c a b = do h <- on a A h; do h <- on a B h; do h <- on b A h; do h <- on b B h;
       do h <- mul_array_naive_h h c n a b 12289; do h <- on c C h; do h <- on c D h; Ok h) -> bmap n 0 (Q - 1) (- (Q - 1)) (Q - 1) P).
  { intros A B C D P HA HB' HC HD HP.
    apply (product_bmap n 0 (Q - 1) (- (Q - 1)) (Q - 1) (- (Q - 1)) (Q - 1) (- (Q - 1)) (Q - 1) 1 _ _ _ _ _ P
      (lmap_seq _ _ _ _ _ _ _ _ _ (W A HA) HB') (step_seq _ _ _ _ (step1 A) (step1 B)) HM
      (lmap_seq _ _ _ _ _ _ _ _ _ HC HD) (step_seq _ _ _ _ (step1 C) (step1 D))).
    intros h c a b. rewrite HP.
    destruct (on a A h) as [h1|]; cbn [bind]; [|reflexivity].
    destruct (on a B h1) as [h2|]; cbn [bind]; [|reflexivity].
    destruct (on b A h2) as [h3|]; cbn [bind]; [|reflexivity].
    destruct (on b B h3) as [h4|]; cbn [bind]; [|reflexivity].
    destruct (mul_array_naive_h h4 c n a b 12289) as [h5|]; cbn [bind]; [|reflexivity].
    destruct (on c C h5) as [h6|]; cbn [bind]; [|reflexivity].
    destruct (on c D h6) as [h7|]; cbn [bind]; reflexivity. }
  assert (P1 := vmul_lmap (psi_powers T) ltac:(inl)). assert (P2 := vmul_lmap (scaled_inv_psi_powers T) ltac:(inl)).
  cbn [In] in H. destruct H as [<-|[<-|[<-|[<-|[<-|[]]]]]].
  - apply (G4 _ (v_ct_std2rev n T) (v_intt_ct_rev2std n T) _ _ P1 ltac:(unfold vl, v_ct_std2rev; trl) ltac:(unfold vl, v_intt_ct_rev2std; trl) P2).
    reflexivity.
  - apply (G4 _ (v_gs_std2rev n T) (v_intt_ct_rev2std n T) _ _ P1 ltac:(unfold vl, v_gs_std2rev; trl) ltac:(unfold vl, v_intt_ct_rev2std; trl) P2).
    reflexivity.
  - apply (G4 _ (v_ct_std2rev n T) (v_intt_gs_rev2std n T) _ _ P1 ltac:(unfold vl, v_ct_std2rev; trl) ltac:(unfold vl, v_intt_gs_rev2std; trl) P2).
    reflexivity.
  - apply (G4 _ (v_gs_std2rev n T) (v_intt_gs_rev2std n T) _ _ P1 ltac:(unfold vl, v_gs_std2rev; trl) ltac:(unfold vl, v_intt_gs_rev2std; trl) P2).
    reflexivity.
  - assert (A1 : vl (v_mulntt_ct_std2rev n T)) by (unfold vl, v_mulntt_ct_std2rev; trl).
    assert (A2 : vl (v_inttmul_gs_rev2std n T)) by (unfold vl, v_inttmul_gs_rev2std; trl).
    assert (A3 : vl (fun x => scalar_mul_array_naive x n (t_inv_n T) 12289)) by (unfold vl; rewrite En; apply scalar_naive_lmap; [exact Hk31|apply HT]).
    apply (product_bmap n 0 (Q - 1) (- (Q - 1)) (Q - 1) (- (Q - 1)) (Q - 1) (- (Q - 1)) (Q - 1) 1 _ _ _ _ _ (naive_product5 n T) (W _ A1) (step1 _) HM
      (lmap_seq _ _ _ _ _ _ _ _ _ A2 A3) (step_seq _ _ _ _ (step1 _) (step1 _))).
    intros h c a b. unfold naive_product5.
    destruct (on a _ h) as [h1|]; cbn [bind]; [|reflexivity].
    destruct (on b _ h1) as [h2|]; cbn [bind]; [|reflexivity].
    destruct (mul_array_naive_h h2 c n a b 12289) as [h5|]; cbn [bind]; [|reflexivity].
    destruct (on c _ h5) as [h6|]; cbn [bind]; [|reflexivity].
    destruct (on c _ h6) as [h7|]; cbn [bind]; reflexivity.
Qed.
End Naive.

Lemma naive_certifies_L :
  forall rnd clk stk n T bt np, canonical_tables n T -> make_bitrev_table n = Ok (Written (np, bt)) ->
  (forall p, zlen (stk p) = n) -> test_naive_ntt_main rnd clk stk n T bt np = Ok 0 ->
  (forall f omega s2r, In (f, omega, s2r)
     [(v_ct_rev2std n T, t_omega T, false); (v_gs_rev2std n T, t_omega T, false);
      (v_ct_std2rev n T, t_omega T, true); (v_gs_std2rev n T, t_omega T, true);
      (v_intt_ct_rev2std n T, t_inv_omega T, false); (v_intt_gs_rev2std n T, t_inv_omega T, false);
      (v_intt_ct_std2rev n T, t_inv_omega T, true); (v_intt_gs_std2rev n T, t_inv_omega T, true)] ->
   eqQ (omega ^ (n / 2)) (-1)
   /\ forall a, zlen a = n -> all_in 0 (Q - 1) a ->
      exists r, (if s2r : bool then do r <- f a; bitrev_shuffle r n else do b <- bitrev_shuffle a n; f b) = Ok r
        /\ zlen r = n /\ all_in (- (Q - 1)) (Q - 1) r /\ forall i, 0 <= i < n -> eqQ (at_ r i) (NTT n omega (at_ a) i))
  /\ (forall f, In f [naive_product1 n T; naive_product2 n T; naive_product3 n T; naive_product4 n T; naive_product5 n T] ->
      forall h c a b, a <> b -> zlen (h c) = n -> zlen (h a) = n -> zlen (h b) = n ->
      all_in 0 (Q - 1) (h a) -> all_in 0 (Q - 1) (h b) ->
      exists h', f h c a b = Ok h' /\ zlen (h' c) = n /\ all_in (- (Q - 1)) (Q - 1) (h' c)
        /\ forall t, 0 <= t < n -> eqQ (at_ (h' c) t) (negacyclic n (at_ (h a)) (at_ (h b)) t)).
Proof.
  intros rnd clk stk n T bt np HT HB Ls HM.
  destruct (proj1 (proj1 (make_bitrev_table_accepts_iff_L n)) (ex_intro _ _ HB)) as (k & Hk & En).
  assert (Hn : 2 <= n <= 32768).
  { rewrite En. change 2 with (2 ^ 1) at 1. change 32768 with (2 ^ 15). split; apply Z.pow_le_mono_r; lia. }
  assert (Hn32 : 0 <= n < 2 ^ 32) by (change (2 ^ 32) with 4294967296; lia).
  destruct (bitrev_table_shuffle_agrees_L _ _ _ HB) as (_ & _ & HS).
  assert (SW : forall a, zlen a = n -> shuffle_with_table a bt np = bitrev_shuffle a n).
  { intros a La. destruct (HS a La) as (r & -> & ->). reflexivity. }
  unfold test_naive_ntt_main in HM. destruct (main_inv _ _ _ _ _ _ _ _ HM) as (r0 & Et).
  assert (O1 : 0 <= f_omega (naive_functions n T) < Q) by (cbn [f_omega naive_functions]; apply HT).
  assert (O2 : 0 <= f_inv_omega (naive_functions n T) < Q) by (cbn [f_inv_omega naive_functions]; apply HT).
  split.
  - intros f omega s2r Hf.
    assert (HL : lmap n (- (Q - 1)) (Q - 1) (- (Q - 1)) (Q - 1) f) by (apply (vall_lmap k n T Hk En HT f omega s2r Hf)).
    assert (HSL := swt_lmap k n bt np Hk En HB (- (Q - 1)) (Q - 1)).
    set (core := fun a => if s2r : bool then do a <- f a; shuffle_with_table a bt np else do a <- shuffle_with_table a bt np; f a).
    assert (HCo : lmap n 0 (Q - 1) (- (Q - 1)) (Q - 1) core).
    { apply (lmap_weaken n (- (Q - 1)) (Q - 1) (- (Q - 1)) (Q - 1)); [|unfold Q; lia ..].
      unfold core. destruct s2r; [exact (lmap_seq _ _ _ _ _ _ _ _ _ HL HSL)|exact (lmap_seq _ _ _ _ _ _ _ _ _ HSL HL)]. }
    destruct (certify_transform rnd stk n k bt np (naive_variant n T) (naive_functions n T) Hk En Ls O1 O2 r0 Et f omega s2r Hf) as [HO HA].
    { cbn [before after naive_variant]. exact (lmap_seq _ _ _ _ _ _ _ _ _ (lmap_id n 0 (Q - 1)) (lmap_seq _ _ _ _ _ _ _ core _ HCo (normalize_step n Hn32))). }
    split; [exact HO|]. intros a La Ia. destruct (HA a La Ia) as (r & E & Lr & Vr). cbn [before after naive_variant bind] in E. fold (core a) in E.
    destruct HCo as [F HF]. destruct (HF a La Ia) as (x & Ex & Lx & Ix & _). rewrite Ex in E. cbn [bind] in E.
    destruct (ntt_normalize_lmap n Hn32 x Lx Ix) as (r' & E' & _ & V'). rewrite E in E'. injection E' as <-.
    exists x. split; [|split; [exact Lx|]; split; [exact Ix|]].
    + rewrite <- Ex. unfold core. destruct s2r; [|rewrite SW by exact La; reflexivity].
      destruct HL as [G HG]. destruct (HG a La ltac:(intros v Hv; specialize (Ia v Hv); unfold Q in *; lia)) as (y & -> & Ly & _).
      cbn [bind]. rewrite SW by exact Ly. reflexivity.
    + intros i Hi. assert (Y := Vr i Hi). rewrite (V' i Hi) in Y. exact Y.
  - intros f Hf. apply (certify_product rnd stk n k bt np (naive_variant n T) (naive_functions n T) Hk En Ls r0 Et f _ _ Hf (vprod_bmap k n T Hk En HT f Hf)).
    intros c Lc Ic. cbn [after_product naive_variant]. exact (ntt_normalize_lmap n Hn32 c Lc Ic).
Qed.
