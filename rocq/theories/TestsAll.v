(** test_ntt16.c, ..., test_ntt1024.c with any tables: returning 0 certifies everything. *)

From Coq Require Import ZArith List Bool Lia Setoid Morphisms.
From Verif Require Import CSem Spec Loops ModQ Conv HeapElem NttElem AvxArrays ModelNtt ModelGen ModelProducts ElemFinal
  ProdFinal ShuffleFinal LinRed BasisElem LinNtt TestsElem TestsSound ModelTests TestsFinal TestsLin FrameFinal.
From Verif Require Fermat RootsElem.
Import Spec.
Import ListNotations.
Open Scope Z_scope.

Section Default.
Variables (k n : Z) (T : tables) (bt : list (Z * Z)) (np : Z).
Hypothesis Hk : 1 <= k <= 15.
Hypothesis En : n = 2 ^ k.
Hypothesis HT : canonical_tables n T.
Hypothesis HB : make_bitrev_table n = Ok (Written (np, bt)).

Let Hk31 : 0 <= k <= 31.
Proof. lia. Qed.
Let Hn : 2 <= n <= 32768.
Proof. rewrite En. change 2 with (2 ^ 1) at 1. change 32768 with (2 ^ 15). split; apply Z.pow_le_mono_r; lia. Qed.

Lemma tab_ok p : In p [psi_powers T; scaled_inv_psi_powers T; omega_powers T; omega_powers_rev T; inv_omega_powers T;
      inv_omega_powers_rev T; mixed_powers T; mixed_powers_rev T; inv_mixed_powers T; inv_mixed_powers_rev T] ->
  zlen p = 2 ^ k /\ all_in 0 (Q - 1) p.
Proof. rewrite <- En. apply HT. Qed.

Lemma swt_linear : linear_map n (fun a => shuffle_with_table a bt np).
Proof.
  destruct (bitrev_table_shuffle_agrees_L _ _ _ HB) as (_ & _ & H).
  apply (linear_ext n _ (fun a => bitrev_shuffle a n)).
  - intros a La. destruct (H a La) as (r & -> & ->). reflexivity.
  - rewrite En. apply shuffle_linear. exact Hk31.
Qed.

Lemma tr_linear f i : In f
    [ntt_ct_rev2std_v1; ntt_ct_rev2std; mulntt_ct_rev2std; ntt_ct_std2rev; mulntt_ct_std2rev;
     ntt_gs_rev2std; nttmul_gs_rev2std; ntt_gs_std2rev; nttmul_gs_std2rev] ->
  In i [psi_powers T; scaled_inv_psi_powers T; omega_powers T; omega_powers_rev T; inv_omega_powers T;
      inv_omega_powers_rev T; mixed_powers T; mixed_powers_rev T; inv_mixed_powers T; inv_mixed_powers_rev T] ->
  linear_map n (fun a => f a n i).
Proof.
  intros Hf Hi. destruct (tab_ok i Hi) as [L I]. rewrite En. apply transform_linear; assumption.
Qed.

Lemma mul_linear i :
  In i [psi_powers T; scaled_inv_psi_powers T; omega_powers T; omega_powers_rev T; inv_omega_powers T;
      inv_omega_powers_rev T; mixed_powers T; mixed_powers_rev T; inv_mixed_powers T; inv_mixed_powers_rev T] ->
  linear_map n (fun a => mul_array16 a n i).
Proof.
  intros Hi. destruct (tab_ok i Hi) as [L I]. rewrite En. apply mul_array16_linear; assumption.
Qed.

Ltac inl := solve [repeat (try (left; reflexivity); right)].
Ltac trl := solve [apply tr_linear; inl].

Lemma all_linear f omega s2r : In (f, omega, s2r)
     [(n_ct_rev2std n T, t_omega T, false); (n_gs_rev2std n T, t_omega T, false);
      (n_ct_std2rev n T, t_omega T, true); (n_gs_std2rev n T, t_omega T, true);
      (n_intt_ct_rev2std n T, t_inv_omega T, false); (n_intt_gs_rev2std n T, t_inv_omega T, false);
      (n_intt_ct_std2rev n T, t_inv_omega T, true); (n_intt_gs_std2rev n T, t_inv_omega T, true)] ->
  linear_map n f.
Proof.
  intros H. cbn [In] in H.
  repeat (destruct H as [H|H]; [injection H as <- _ _;
    unfold n_ct_rev2std, n_gs_rev2std, n_ct_std2rev, n_gs_std2rev, n_intt_ct_rev2std, n_intt_gs_rev2std, n_intt_ct_std2rev,
      n_intt_gs_std2rev; trl|]). destruct H.
Qed.

Lemma prod_bmap f : In f [ntt_product1 n T; ntt_product2 n T; ntt_product3 n T; ntt_product4 n T; ntt_product5 n T] ->
  bmap n 0 (Q - 1) 0 (Q - 1) f.
Proof.
  intros H.
  assert (HM := mul_array_mul_ok n ltac:(change (2 ^ 32) with 4294967296; lia)).
  assert (G : forall A B, linear_map n A -> linear_map n B -> lmap n 0 (Q - 1) 0 (Q - 1) (fun a => do a <- A a; B a)).
  { intros A B HA HB'. apply linear_lmap, seq_linear; assumption. }
  assert (G4 : forall A B C D P, linear_map n A -> linear_map n B -> linear_map n C -> linear_map n D ->
    (forall h c a b, P h c a b = do h <- on a A h; do h <- on a B h; do h <- on b A h; do h <- on b B h;
       do h <- mul_array_h h c n a b; do h <- on c C h; do h <- on c D h; Ok h) -> bmap n 0 (Q - 1) 0 (Q - 1) P).
  { intros A B C D P HA HB' HC HD HP.
    apply (product_bmap n 0 (Q - 1) 0 (Q - 1) 0 (Q - 1) 0 (Q - 1) 1 _ _ _ _ _ P (G A B HA HB') (step_seq _ _ _ _ (step1 A) (step1 B)) HM
      (G C D HC HD) (step_seq _ _ _ _ (step1 C) (step1 D))).
    intros h c a b. rewrite HP.
    destruct (on a A h) as [h1|]; cbn [bind]; [|reflexivity].
    destruct (on a B h1) as [h2|]; cbn [bind]; [|reflexivity].
    destruct (on b A h2) as [h3|]; cbn [bind]; [|reflexivity].
    destruct (on b B h3) as [h4|]; cbn [bind]; [|reflexivity].
    destruct (mul_array_h h4 c n a b) as [h5|]; cbn [bind]; [|reflexivity].
    destruct (on c C h5) as [h6|]; cbn [bind]; [|reflexivity].
    destruct (on c D h6) as [h7|]; cbn [bind]; reflexivity. }
  assert (P1 := mul_linear (psi_powers T) ltac:(inl)). assert (P2 := mul_linear (scaled_inv_psi_powers T) ltac:(inl)).
  cbn [In] in H. destruct H as [<-|[<-|[<-|[<-|[<-|[]]]]]].
  - apply (G4 _ (n_ct_std2rev n T) (n_intt_ct_rev2std n T) _ _ P1 ltac:(unfold n_ct_std2rev; trl) ltac:(unfold n_intt_ct_rev2std; trl) P2).
    reflexivity.
  - apply (G4 _ (n_gs_std2rev n T) (n_intt_ct_rev2std n T) _ _ P1 ltac:(unfold n_gs_std2rev; trl) ltac:(unfold n_intt_ct_rev2std; trl) P2).
    reflexivity.
  - apply (G4 _ (n_ct_std2rev n T) (n_intt_gs_rev2std n T) _ _ P1 ltac:(unfold n_ct_std2rev; trl) ltac:(unfold n_intt_gs_rev2std; trl) P2).
    reflexivity.
  - apply (G4 _ (n_gs_std2rev n T) (n_intt_gs_rev2std n T) _ _ P1 ltac:(unfold n_gs_std2rev; trl) ltac:(unfold n_intt_gs_rev2std; trl) P2).
    reflexivity.
  - assert (A1 : linear_map n (n_mulntt_ct_std2rev n T)) by (unfold n_mulntt_ct_std2rev; trl).
    assert (A2 : linear_map n (n_inttmul_gs_rev2std n T)) by (unfold n_inttmul_gs_rev2std; trl).
    assert (A3 : linear_map n (fun x => scalar_mul_array x n (t_inv_n T))) by (rewrite En; apply scalar_linear; [exact Hk31|apply HT]).
    apply (product_bmap n 0 (Q - 1) 0 (Q - 1) 0 (Q - 1) 0 (Q - 1) 1 _ _ _ _ _ (ntt_product5 n T) (linear_lmap _ _ A1) (step1 _) HM
      (G _ _ A2 A3) (step_seq _ _ _ _ (step1 _) (step1 _))).
    intros h c a b. unfold ntt_product5.
    destruct (on a _ h) as [h1|]; cbn [bind]; [|reflexivity].
    destruct (on b _ h1) as [h2|]; cbn [bind]; [|reflexivity].
    destruct (mul_array_h h2 c n a b) as [h5|]; cbn [bind]; [|reflexivity].
    destruct (on c _ h5) as [h6|]; cbn [bind]; [|reflexivity].
    destruct (on c _ h6) as [h7|]; cbn [bind]; reflexivity.
Qed.
End Default.

Lemma geom_sum n w : 0 <= n -> (w - 1) * Sum n (fun m => w ^ m) = w ^ n - 1.
Proof.
  intros Hn. revert n Hn. apply natlike_ind; [rewrite Sum_0; change (w ^ 0) with 1; ring|].
  intros x Hx IH. unfold Z.succ. rewrite Sum_succ by exact Hx. rewrite Z.mul_add_distr_l, IH, Z.pow_add_r by lia. ring.
Qed.

(** If the transform of (1, ..., 1) is (n, 0, ..., 0), omega is a primitive n-th root of unity *)
Lemma primitive_of_sums k w : 1 <= k -> (forall i, 0 < i < 2 ^ k -> eqQ (NTT (2 ^ k) w (fun _ => 1) i) 0) -> eqQ (w ^ (2 ^ (k - 1))) (-1).
Proof.
  intros Hk H. assert (E : 2 ^ k = 2 * 2 ^ (k - 1)) by (rewrite <- Z.pow_succ_r by lia; f_equal; lia).
  assert (P : 0 < 2 ^ (k - 1)) by (apply Z.pow_pos_nonneg; lia). set (m := 2 ^ (k - 1)) in *.
  assert (G : forall i, 0 < i < 2 ^ k -> eqQ ((w ^ i) ^ (2 ^ k)) 1).
  { intros i Hi. assert (X := geom_sum (2 ^ k) (w ^ i) ltac:(lia)). specialize (H i Hi). unfold NTT in H.
    assert (Y : Sum (2 ^ k) (fun j => 1 * w ^ (j * i)) = Sum (2 ^ k) (fun m => (w ^ i) ^ m)).
    { apply Sum_ext. intros j Hj. rewrite (Z.mul_comm j i), Z.pow_mul_r by lia. ring. }
    rewrite Y in H. assert (Z0 : eqQ ((w ^ i) ^ 2 ^ k - 1) 0) by (rewrite <- X, H; qring).
    replace ((w ^ i) ^ 2 ^ k) with ((w ^ i) ^ 2 ^ k - 1 + 1) by ring. rewrite Z0. reflexivity. }
  assert (G1 := G 1 ltac:(lia)). rewrite Z.pow_1_r in G1.
  assert (Z0 : eqQ ((w ^ m - 1) * (w ^ m + 1)) 0).
  { replace ((w ^ m - 1) * (w ^ m + 1)) with (w ^ m * w ^ m - 1) by ring. rewrite <- Z.pow_add_r by lia.
    replace (m + m) with (2 ^ k) by lia. rewrite G1. reflexivity. }
  apply RootsElem.no_zero_divisor in Z0 as [Z0|Z0].
  - exfalso. assert (W : eqQ (w ^ m) 1) by (replace (w ^ m) with (w ^ m - 1 + 1) by ring; rewrite Z0; reflexivity).
    specialize (H m ltac:(lia)). unfold NTT in H.
    assert (Y : eqQ (Sum (2 ^ k) (fun j => 1 * w ^ (j * m))) (Sum (2 ^ k) (fun _ => 1))).
    { apply Sum_extQ. intros j Hj. rewrite (Z.mul_comm j m), Z.pow_mul_r by lia. rewrite W. rewrite Z.pow_1_l by lia. reflexivity. }
    rewrite Y, Sum_const, Z.mul_1_r in H by lia. exact (Fermat.pow2_nonzero k ltac:(lia) H).
  - replace (w ^ m) with (w ^ m + 1 - 1) by ring. rewrite Z0. reflexivity.
Qed.

(** ** Returning 0 *)

Lemma nega_mod_ext x y : eqQ x y -> 0 <= x < Q -> x = y mod Q.
Proof. intros E H. unfold eqQ in E. rewrite <- E. symmetry. apply Z.mod_small. exact H. Qed.

Lemma default_certifies_L :
  forall rnd clk stk n T bt np, canonical_tables n T -> make_bitrev_table n = Ok (Written (np, bt)) ->
  (forall p, zlen (stk p) = n) -> test_ntt_main rnd clk stk n T bt np = Ok 0 ->
  (forall f omega s2r, In (f, omega, s2r)
     [(n_ct_rev2std n T, t_omega T, false); (n_gs_rev2std n T, t_omega T, false);
      (n_ct_std2rev n T, t_omega T, true); (n_gs_std2rev n T, t_omega T, true);
      (n_intt_ct_rev2std n T, t_inv_omega T, false); (n_intt_gs_rev2std n T, t_inv_omega T, false);
      (n_intt_ct_std2rev n T, t_inv_omega T, true); (n_intt_gs_std2rev n T, t_inv_omega T, true)] ->
   eqQ (omega ^ (n / 2)) (-1)
   /\ forall a, zlen a = n -> all_in 0 (Q - 1) a ->
      exists r, (if s2r : bool then do r <- f a; bitrev_shuffle r n else do b <- bitrev_shuffle a n; f b) = Ok r
        /\ zlen r = n /\ forall i, 0 <= i < n -> at_ r i = NTT n omega (at_ a) i mod Q)
  /\ (forall f, In f [ntt_product1 n T; ntt_product2 n T; ntt_product3 n T; ntt_product4 n T; ntt_product5 n T] ->
      forall h c a b, a <> b -> zlen (h c) = n -> zlen (h a) = n -> zlen (h b) = n ->
      all_in 0 (Q - 1) (h a) -> all_in 0 (Q - 1) (h b) ->
      exists h', f h c a b = Ok h' /\ zlen (h' c) = n
        /\ forall t, 0 <= t < n -> at_ (h' c) t = negacyclic n (at_ (h a)) (at_ (h b)) t mod Q).
Proof.
  intros rnd clk stk n T bt np HT HB Ls HM.
  destruct (proj1 (proj1 (make_bitrev_table_accepts_iff_L n)) (ex_intro _ _ HB)) as (k & Hk & En).
  assert (Hn : 2 <= n <= 32768).
  { rewrite En. change 2 with (2 ^ 1) at 1. change 32768 with (2 ^ 15). split; apply Z.pow_le_mono_r; lia. }
  assert (Hn31 : 0 < n < 2 ^ 31) by (change (2 ^ 31) with 2147483648; lia).
  destruct (bitrev_table_shuffle_agrees_L _ _ _ HB) as (_ & _ & HS).
  assert (SW : forall a, zlen a = n -> shuffle_with_table a bt np = bitrev_shuffle a n).
  { intros a La. destruct (HS a La) as (r & -> & ->). reflexivity. }
  unfold test_ntt_main in HM. split.
  - intros f omega s2r Hf.
    set (run := fun a => if s2r : bool then do a <- f a; shuffle_with_table a bt np else do a <- shuffle_with_table a bt np; f a).
    assert (HL : linear_map n f) by (apply (all_linear k n T Hk En HT f omega s2r Hf)).
    assert (HSL := swt_linear k n bt np Hk En HB).
    assert (HR : lmap n 0 (Q - 1) 0 (Q - 1) run).
    { apply linear_lmap. unfold run. destruct s2r; apply seq_linear; assumption. }
    assert (HC := main_certifies_transforms_L rnd clk stk n bt np (default_variant n T) (default_functions n T) Hn31 Ls
      ltac:(cbn [f_omega default_functions]; apply HT) ltac:(cbn [f_inv_omega default_functions]; apply HT) HM f omega s2r Hf).
    cbn [before after default_variant] in HC.
    assert (ER : forall a, (do a <- Ok a; do a <- (if s2r then do a <- f a; shuffle_with_table a bt np else do a <- shuffle_with_table a bt np; f a); Ok a) = run a).
    { intros a. cbn [bind]. fold (run a). destruct (run a); reflexivity. }
    cbv zeta in HC.
    assert (HC' : forall j a, 0 <= j < n -> zlen a = n -> (forall i, 0 <= i < n -> at_ a i = if i =? j then 1 else 0) ->
      exists r r2, run a = Ok r /\ (forall i, 0 <= i < n -> at_ r i = NTT n omega (at_ a) i mod Q) /\ run r = Ok r2
      /\ forall i, 0 <= i < n -> if (i + j) mod n =? 0 then at_ r2 i mod 2 ^ 32 = n else at_ r2 i = 0).
    { intros j a Hj La Va. destruct (HC ltac:(intros x r Lx Ix E; rewrite ER in E; destruct HR as [F HF];
        destruct (HF x Lx Ix) as (r' & E' & L' & _); rewrite E in E'; injection E' as <-; exact L') j a Hj La Va) as (r & r2 & E1 & V1 & E2 & V2).
      rewrite ER in E1, E2. exists r, r2. auto. }
    clear HC.
    assert (HA := lmap_all n 0 (Q - 1) 0 (Q - 1) run omega ltac:(lia) ltac:(lia) ltac:(unfold Q; lia) HR).
    assert (HA' := HA ltac:(intros j a Hj La Va; destruct (HC' j a Hj La Va) as (r & r2 & E1 & V1 & _); exists r; split; [exact E1|];
      intros i Hi; rewrite (V1 i Hi); apply eqQ_modn)). clear HA.
    split.
    + rewrite En. replace (2 ^ k / 2) with (2 ^ (k - 1)).
      2:{ replace (2 ^ k) with (2 ^ (k - 1) * 2) by (rewrite Z.mul_comm, <- Z.pow_succ_r by lia; f_equal; lia).
          rewrite Z.div_mul by lia. reflexivity. }
      apply primitive_of_sums; [lia|]. rewrite <- En. intros i Hi.
      destruct (unit_array n 0 ltac:(lia)) as (u & Lu & Iu & Vu).
      destruct (HC' 0 u ltac:(lia) Lu Vu) as (r & r2 & E1 & V1 & E2 & V2).
      destruct HR as [F HF]. destruct (HF u Lu Iu) as (r' & E1' & Lr & Ir & _). rewrite E1 in E1'. injection E1' as <-.
      destruct (HA' r Lr Ir) as (r2' & E2' & _ & _ & W2). rewrite E2 in E2'. injection E2' as <-.
      specialize (W2 i ltac:(lia)). specialize (V2 i ltac:(lia)). rewrite Z.add_0_r, Z.mod_small in V2 by lia.
      destruct (Z.eqb_spec i 0); [lia|]. rewrite V2 in W2. rewrite W2.
      unfold NTT. apply Sum_extQ. intros m Hm. rewrite V1 by exact Hm. rewrite eqQ_modn. unfold NTT.
      rewrite (Sum_single n 0 _ ltac:(lia)); [rewrite Vu by lia; rewrite Z.eqb_refl, Z.mul_0_l; reflexivity|].
      intros x Hx Hne. rewrite Vu by exact Hx. apply Z.eqb_neq in Hne. rewrite Hne. reflexivity.
    + intros a La Ia. destruct (HA' a La Ia) as (r & E & Lr & Ir & V). exists r.
      split; [|split; [exact Lr|]].
      * rewrite <- E. unfold run. destruct s2r; [|rewrite SW by exact La; reflexivity].
        destruct (linear_canon n f HL a La Ia) as (x & -> & Lx & _). cbn [bind]. rewrite SW by exact Lx. reflexivity.
      * intros i Hi. apply nega_mod_ext; [exact (V i Hi)|]. assert (B := all_in_at _ _ _ i Ir ltac:(lia)). lia.
  - intros f Hf h c a b Hab Lc La Lb Ia Ib.
    assert (HP := prod_bmap k n T Hk En HT f Hf).
    destruct (bmap_all n 0 (Q - 1) 0 (Q - 1) f stk ltac:(lia) ltac:(lia) ltac:(unfold Q; lia) HP (Ls 2)) with (h := h) (c := c) (a := a) (b := b)
      as (h' & E & L & I & V); try assumption.
    + intros i m x y Hi Hm Lx Ly Vx Vy.
      destruct (main_certifies_products_L rnd clk stk n bt np (default_variant n T) (default_functions n T) Hn31 Ls HM f Hf i m x y
        Hi Hm Lx Ly Vx Vy) as (h' & c' & E & E2 & V). cbn [after_product default_variant] in E2. injection E2 as <-.
      exists h'. split; [exact E|]. intros t Ht. rewrite (V t Ht). apply eqQ_modn.
    + exists h'. split; [exact E|]. split; [exact L|]. intros t Ht. apply nega_mod_ext; [exact (V t Ht)|].
      assert (B := all_in_at _ _ _ t I ltac:(lia)). lia.
Qed.
