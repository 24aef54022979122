(** How test_ntt_avx.c can end: lemmas behind [PropTestNttAvx]. *)

From Coq Require Import ZArith List Bool Lia.
From Verif Require Import CSem Spec Loops ModelRed ModelAvx ModelTests TestsElem TestsRun ModelTestAvx
  TestAvxElem ModelTestTables ModelTestNttAvx TestNttAvxElem TestNttAvxFinal.
From Verif Require SafeFinal FrameFinal.
Import ListNotations.
Open Scope Z_scope.

Definition bad : err -> Prop := fun e => e = SignedOverflow \/ e = AssertFail.
Definition whole (s : globals) : Prop := let '(t, a, p, _, _) := s in zlen t = NTESTS /\ zlen a = 2048 /\ zlen p = 2048.

Lemma pow_le_2048 k : k <= 11 -> 2 ^ k <= 2048.
Proof. intros Hk. change 2048 with (2 ^ 11). apply Z.pow_le_mono_r; lia. Qed.

(** The C transforms, on the first elements of arrays of 2048 elements *)
Lemma c_out k n f : 4 <= k <= 11 -> n = 2 ^ k ->
  In f [ntt_red_ct_rev2std; ntt_red_ct_std2rev; ntt_red_gs_rev2std; ntt_red_gs_std2rev;
        mulntt_red_ct_rev2std; mulntt_red_ct_std2rev; nttmul_red_gs_rev2std; nttmul_red_gs_std2rev] ->
  forall a p, zlen a = 2048 -> zlen p = 2048 -> ends bad (f a n p) (fun r => zlen r = 2048).
Proof.
  intros Hk -> HI a p La Lp. assert (HL := pow_le_2048 k ltac:(lia)).
  destruct (proj1 SafeFinal.red_stays_in_bounds_L f HI k a p ltac:(lia) ltac:(lia) ltac:(lia)) as [(r & E & L)|[E|E]]; rewrite E; cbn [ends].
  - lia.
  - left. reflexivity.
  - right. reflexivity.
Qed.

(** The AVX2 routines, the same *)
Lemma asm_out k n f : 4 <= k <= 11 -> n = 2 ^ k ->
  In f [ntt_red_ct_rev2std_asm; ntt_red_ct_std2rev_asm; ntt_red_gs_rev2std_asm; ntt_red_gs_std2rev_asm;
        mulntt_red_ct_rev2std_asm; mulntt_red_ct_std2rev_asm; nttmul_red_gs_rev2std_asm; nttmul_red_gs_std2rev_asm] ->
  forall a p, zlen a = 2048 -> zlen p = 2048 -> ends bad (f a n p) (fun r => zlen r = 2048).
Proof.
  intros Hk -> HI a p La Lp. assert (HL := pow_le_2048 k ltac:(lia)). assert (H0 := Z.pow_nonneg 2 k ltac:(lia)).
  assert (L1 : zlen (firstn (Z.to_nat (2 ^ k)) a) = 2 ^ k) by (unfold zlen in *; rewrite firstn_length; lia).
  destruct (proj1 FrameFinal.asm_in_bounds_L f HI k _ p ltac:(lia) L1 ltac:(lia)) as (r & _ & Lr & H).
  specialize (H (skipn (Z.to_nat (2 ^ k)) a) []). rewrite firstn_skipn, app_nil_r in H. rewrite H. cbn [ends].
  unfold zlen in *. rewrite app_length, skipn_length. lia.
Qed.

Section Program.
Variables (rnd clk : Z -> Z) (stk : Z -> Z -> Z -> list Z).
Hypothesis Hrnd : forall k, 0 <= rnd k < 2 ^ 31.
Hypothesis Hstk : forall n r i, 0 <= n -> zlen (stk n r i) = n.

Lemma speed_out n f s : 0 <= n <= 2048 ->
  (forall a p, zlen a = 2048 -> zlen p = 2048 -> ends bad (f a n p) (fun r => zlen r = 2048)) ->
  whole s -> ends bad (speed_test2 rnd clk n f s) whole.
Proof.
  intros Hn Hf. destruct s as [[[[t a] p] r] c]. intros (Lt & La & Lp). unfold speed_test2.
  destruct (random_array_ok rnd Hrnd n a r ltac:(lia) ltac:(lia)) as (a' & -> & (La' & _)). cbn [bind].
  destruct (random_array16_ok rnd Hrnd n p (r + n) ltac:(lia) ltac:(lia)) as (p' & -> & (Lp' & _)). cbn [bind].
  match goal with |- context [loop NTESTS ?B ?s0] =>
    assert (X := loop_ends bad (fun _ s => zlen (fst (fst s)) = NTESTS /\ zlen (snd (fst s)) = 2048) NTESTS B s0) end.
  eapply ends_bind; [apply X|].
  - assert (HN := NTESTS_range). lia.
  - cbn [fst snd]. split; [exact Lt|]. lia.
  - intros i ((t1 & a1) & c1) Hi [L1 L2]. cbn [fst snd] in L1, L2. rewrite wr_ok by lia. cbn [bind].
    eapply ends_bind; [apply Hf; lia|]. intros b Lb. cbn [ends fst snd]. rewrite aset_len. split; assumption.
  - intros ((t1 & a1) & c1) [L1 L2]. cbn [fst snd] in L1, L2.
    destruct (TestsRun.report_ok clk (fun _ => []) 0 (fun _ => eq_refl) t1 c1 L1) as (t2 & -> & L3). cbn [bind ends whole].
    split; [exact L3|]. split; [exact L2|]. lia.
Qed.

Lemma compare_out n f g s : In (n, f, g)
  [(16, ntt_ct_rev2std16_asm, ntt_ct_rev2std16_base);
   (16, mulntt_ct_rev2std16_asm, mulntt_ct_rev2std16_base);
   (16, ntt_ct_std2rev16_asm, ntt_ct_std2rev16_base);
   (16, mulntt_ct_std2rev16_asm, mulntt_ct_std2rev16_base);
   (16, ntt_gs_rev2std16_asm, ntt_gs_rev2std16_base);
   (16, nttmul_gs_rev2std16_asm, nttmul_gs_rev2std16_base);
   (16, ntt_gs_std2rev16_asm, ntt_gs_std2rev16_base);
   (16, nttmul_gs_std2rev16_asm, nttmul_gs_std2rev16_base);
   (128, ntt_ct_rev2std128_asm, ntt_ct_rev2std128_base);
   (128, mulntt_ct_rev2std128_asm, mulntt_ct_rev2std128_base);
   (128, ntt_ct_std2rev128_asm, ntt_ct_std2rev128_base);
   (128, mulntt_ct_std2rev128_asm, mulntt_ct_std2rev128_base);
   (128, ntt_gs_rev2std128_asm, ntt_gs_rev2std128_base);
   (128, nttmul_gs_rev2std128_asm, nttmul_gs_rev2std128_base);
   (128, ntt_gs_std2rev128_asm, ntt_gs_std2rev128_base);
   (128, nttmul_gs_std2rev128_asm, nttmul_gs_std2rev128_base);
   (256, ntt_ct_rev2std256_asm, ntt_ct_rev2std256_base);
   (256, mulntt_ct_rev2std256_asm, mulntt_ct_rev2std256_base);
   (256, ntt_ct_std2rev256_asm, ntt_ct_std2rev256_base);
   (256, mulntt_ct_std2rev256_asm, mulntt_ct_std2rev256_base);
   (256, ntt_gs_rev2std256_asm, ntt_gs_rev2std256_base);
   (256, nttmul_gs_rev2std256_asm, nttmul_gs_rev2std256_base);
   (256, ntt_gs_std2rev256_asm, ntt_gs_std2rev256_base);
   (256, nttmul_gs_std2rev256_asm, nttmul_gs_std2rev256_base);
   (512, ntt_ct_rev2std512_asm, ntt_ct_rev2std512_base);
   (512, mulntt_ct_rev2std512_asm, mulntt_ct_rev2std512_base);
   (512, ntt_ct_std2rev512_asm, ntt_ct_std2rev512_base);
   (512, mulntt_ct_std2rev512_asm, mulntt_ct_std2rev512_base);
   (512, ntt_gs_rev2std512_asm, ntt_gs_rev2std512_base);
   (512, nttmul_gs_rev2std512_asm, nttmul_gs_rev2std512_base);
   (512, ntt_gs_std2rev512_asm, ntt_gs_std2rev512_base);
   (512, nttmul_gs_std2rev512_asm, nttmul_gs_std2rev512_base);
   (1024, ntt_ct_rev2std1024_asm, ntt_ct_rev2std1024_base);
   (1024, mulntt_ct_rev2std1024_asm, mulntt_ct_rev2std1024_base);
   (1024, ntt_ct_std2rev1024_asm, ntt_ct_std2rev1024_base);
   (1024, mulntt_ct_std2rev1024_asm, mulntt_ct_std2rev1024_base);
   (1024, ntt_gs_rev2std1024_asm, ntt_gs_rev2std1024_base);
   (1024, nttmul_gs_rev2std1024_asm, nttmul_gs_rev2std1024_base);
   (1024, ntt_gs_std2rev1024_asm, ntt_gs_std2rev1024_base);
   (1024, nttmul_gs_std2rev1024_asm, nttmul_gs_std2rev1024_base);
   (2048, ntt_ct_rev2std2048_asm, ntt_ct_rev2std2048_base);
   (2048, mulntt_ct_rev2std2048_asm, mulntt_ct_rev2std2048_base);
   (2048, ntt_ct_std2rev2048_asm, ntt_ct_std2rev2048_base);
   (2048, mulntt_ct_std2rev2048_asm, mulntt_ct_std2rev2048_base);
   (2048, ntt_gs_rev2std2048_asm, ntt_gs_rev2std2048_base);
   (2048, nttmul_gs_rev2std2048_asm, nttmul_gs_rev2std2048_base);
   (2048, ntt_gs_std2rev2048_asm, ntt_gs_std2rev2048_base);
   (2048, nttmul_gs_std2rev2048_asm, nttmul_gs_std2rev2048_base)] ->
  whole s -> ends bad (compare rnd stk n f g s) whole.
Proof.
  intros H. destruct s as [[[[t a] p] r] c]. intros Ht. unfold compare.
  rewrite (cross_checks_pass_L rnd stk Hrnd Hstk n f g r H). exact Ht.
Qed.
Lemma tests16_out s : whole s -> ends bad (tests16 rnd clk stk s) whole.
Proof.
  intros H. unfold tests16.
  eapply ends_bind; [apply (compare_out 16 ntt_ct_rev2std16_asm ntt_ct_rev2std16_base); [apply (nth_error_In _ 0%nat); reflexivity|exact H]|]. clear s H. intros s H.
  eapply ends_bind; [apply (speed_out 16 _ _ ltac:(lia)); [apply (c_out 4 16 _ ltac:(lia) eq_refl); apply (nth_error_In _ 0%nat); reflexivity|exact H]|]. clear s H. intros s H.
  eapply ends_bind; [apply (speed_out 16 _ _ ltac:(lia)); [apply (asm_out 4 16 _ ltac:(lia) eq_refl); apply (nth_error_In _ 0%nat); reflexivity|exact H]|]. clear s H. intros s H.
  eapply ends_bind; [apply (compare_out 16 mulntt_ct_rev2std16_asm mulntt_ct_rev2std16_base); [apply (nth_error_In _ 1%nat); reflexivity|exact H]|]. clear s H. intros s H.
  eapply ends_bind; [apply (speed_out 16 _ _ ltac:(lia)); [apply (c_out 4 16 _ ltac:(lia) eq_refl); apply (nth_error_In _ 4%nat); reflexivity|exact H]|]. clear s H. intros s H.
  eapply ends_bind; [apply (speed_out 16 _ _ ltac:(lia)); [apply (asm_out 4 16 _ ltac:(lia) eq_refl); apply (nth_error_In _ 4%nat); reflexivity|exact H]|]. clear s H. intros s H.
  eapply ends_bind; [apply (compare_out 16 ntt_ct_std2rev16_asm ntt_ct_std2rev16_base); [apply (nth_error_In _ 2%nat); reflexivity|exact H]|]. clear s H. intros s H.
  eapply ends_bind; [apply (speed_out 16 _ _ ltac:(lia)); [apply (c_out 4 16 _ ltac:(lia) eq_refl); apply (nth_error_In _ 1%nat); reflexivity|exact H]|]. clear s H. intros s H.
  eapply ends_bind; [apply (speed_out 16 _ _ ltac:(lia)); [apply (asm_out 4 16 _ ltac:(lia) eq_refl); apply (nth_error_In _ 1%nat); reflexivity|exact H]|]. clear s H. intros s H.
  eapply ends_bind; [apply (compare_out 16 mulntt_ct_std2rev16_asm mulntt_ct_std2rev16_base); [apply (nth_error_In _ 3%nat); reflexivity|exact H]|]. clear s H. intros s H.
  eapply ends_bind; [apply (speed_out 16 _ _ ltac:(lia)); [apply (c_out 4 16 _ ltac:(lia) eq_refl); apply (nth_error_In _ 5%nat); reflexivity|exact H]|]. clear s H. intros s H.
  eapply ends_bind; [apply (speed_out 16 _ _ ltac:(lia)); [apply (asm_out 4 16 _ ltac:(lia) eq_refl); apply (nth_error_In _ 5%nat); reflexivity|exact H]|]. clear s H. intros s H.
  eapply ends_bind; [apply (compare_out 16 ntt_gs_rev2std16_asm ntt_gs_rev2std16_base); [apply (nth_error_In _ 4%nat); reflexivity|exact H]|]. clear s H. intros s H.
  eapply ends_bind; [apply (speed_out 16 _ _ ltac:(lia)); [apply (c_out 4 16 _ ltac:(lia) eq_refl); apply (nth_error_In _ 2%nat); reflexivity|exact H]|]. clear s H. intros s H.
  eapply ends_bind; [apply (speed_out 16 _ _ ltac:(lia)); [apply (asm_out 4 16 _ ltac:(lia) eq_refl); apply (nth_error_In _ 2%nat); reflexivity|exact H]|]. clear s H. intros s H.
  eapply ends_bind; [apply (compare_out 16 nttmul_gs_rev2std16_asm nttmul_gs_rev2std16_base); [apply (nth_error_In _ 5%nat); reflexivity|exact H]|]. clear s H. intros s H.
  eapply ends_bind; [apply (speed_out 16 _ _ ltac:(lia)); [apply (c_out 4 16 _ ltac:(lia) eq_refl); apply (nth_error_In _ 6%nat); reflexivity|exact H]|]. clear s H. intros s H.
  eapply ends_bind; [apply (speed_out 16 _ _ ltac:(lia)); [apply (asm_out 4 16 _ ltac:(lia) eq_refl); apply (nth_error_In _ 6%nat); reflexivity|exact H]|]. clear s H. intros s H.
  eapply ends_bind; [apply (compare_out 16 ntt_gs_std2rev16_asm ntt_gs_std2rev16_base); [apply (nth_error_In _ 6%nat); reflexivity|exact H]|]. clear s H. intros s H.
  eapply ends_bind; [apply (speed_out 16 _ _ ltac:(lia)); [apply (c_out 4 16 _ ltac:(lia) eq_refl); apply (nth_error_In _ 3%nat); reflexivity|exact H]|]. clear s H. intros s H.
  eapply ends_bind; [apply (speed_out 16 _ _ ltac:(lia)); [apply (asm_out 4 16 _ ltac:(lia) eq_refl); apply (nth_error_In _ 3%nat); reflexivity|exact H]|]. clear s H. intros s H.
  eapply ends_bind; [apply (compare_out 16 nttmul_gs_std2rev16_asm nttmul_gs_std2rev16_base); [apply (nth_error_In _ 7%nat); reflexivity|exact H]|]. clear s H. intros s H.
  eapply ends_bind; [apply (speed_out 16 _ _ ltac:(lia)); [apply (c_out 4 16 _ ltac:(lia) eq_refl); apply (nth_error_In _ 7%nat); reflexivity|exact H]|]. clear s H. intros s H.
  apply (speed_out 16 _ _ ltac:(lia)); [apply (asm_out 4 16 _ ltac:(lia) eq_refl); apply (nth_error_In _ 7%nat); reflexivity|exact H].
Qed.
Lemma tests128_out s : whole s -> ends bad (tests128 rnd clk stk s) whole.
Proof.
  intros H. unfold tests128.
  eapply ends_bind; [apply (compare_out 128 ntt_ct_rev2std128_asm ntt_ct_rev2std128_base); [apply (nth_error_In _ 8%nat); reflexivity|exact H]|]. clear s H. intros s H.
  eapply ends_bind; [apply (speed_out 128 _ _ ltac:(lia)); [apply (c_out 7 128 _ ltac:(lia) eq_refl); apply (nth_error_In _ 0%nat); reflexivity|exact H]|]. clear s H. intros s H.
  eapply ends_bind; [apply (speed_out 128 _ _ ltac:(lia)); [apply (asm_out 7 128 _ ltac:(lia) eq_refl); apply (nth_error_In _ 0%nat); reflexivity|exact H]|]. clear s H. intros s H.
  eapply ends_bind; [apply (compare_out 128 mulntt_ct_rev2std128_asm mulntt_ct_rev2std128_base); [apply (nth_error_In _ 9%nat); reflexivity|exact H]|]. clear s H. intros s H.
  eapply ends_bind; [apply (speed_out 128 _ _ ltac:(lia)); [apply (c_out 7 128 _ ltac:(lia) eq_refl); apply (nth_error_In _ 4%nat); reflexivity|exact H]|]. clear s H. intros s H.
  eapply ends_bind; [apply (speed_out 128 _ _ ltac:(lia)); [apply (asm_out 7 128 _ ltac:(lia) eq_refl); apply (nth_error_In _ 4%nat); reflexivity|exact H]|]. clear s H. intros s H.
  eapply ends_bind; [apply (compare_out 128 ntt_ct_std2rev128_asm ntt_ct_std2rev128_base); [apply (nth_error_In _ 10%nat); reflexivity|exact H]|]. clear s H. intros s H.
  eapply ends_bind; [apply (speed_out 128 _ _ ltac:(lia)); [apply (c_out 7 128 _ ltac:(lia) eq_refl); apply (nth_error_In _ 1%nat); reflexivity|exact H]|]. clear s H. intros s H.
  eapply ends_bind; [apply (speed_out 128 _ _ ltac:(lia)); [apply (asm_out 7 128 _ ltac:(lia) eq_refl); apply (nth_error_In _ 1%nat); reflexivity|exact H]|]. clear s H. intros s H.
  eapply ends_bind; [apply (compare_out 128 mulntt_ct_std2rev128_asm mulntt_ct_std2rev128_base); [apply (nth_error_In _ 11%nat); reflexivity|exact H]|]. clear s H. intros s H.
  eapply ends_bind; [apply (speed_out 128 _ _ ltac:(lia)); [apply (c_out 7 128 _ ltac:(lia) eq_refl); apply (nth_error_In _ 5%nat); reflexivity|exact H]|]. clear s H. intros s H.
  eapply ends_bind; [apply (speed_out 128 _ _ ltac:(lia)); [apply (asm_out 7 128 _ ltac:(lia) eq_refl); apply (nth_error_In _ 5%nat); reflexivity|exact H]|]. clear s H. intros s H.
  eapply ends_bind; [apply (compare_out 128 ntt_gs_rev2std128_asm ntt_gs_rev2std128_base); [apply (nth_error_In _ 12%nat); reflexivity|exact H]|]. clear s H. intros s H.
  eapply ends_bind; [apply (speed_out 128 _ _ ltac:(lia)); [apply (c_out 7 128 _ ltac:(lia) eq_refl); apply (nth_error_In _ 2%nat); reflexivity|exact H]|]. clear s H. intros s H.
  eapply ends_bind; [apply (speed_out 128 _ _ ltac:(lia)); [apply (asm_out 7 128 _ ltac:(lia) eq_refl); apply (nth_error_In _ 2%nat); reflexivity|exact H]|]. clear s H. intros s H.
  eapply ends_bind; [apply (compare_out 128 nttmul_gs_rev2std128_asm nttmul_gs_rev2std128_base); [apply (nth_error_In _ 13%nat); reflexivity|exact H]|]. clear s H. intros s H.
  eapply ends_bind; [apply (speed_out 128 _ _ ltac:(lia)); [apply (c_out 7 128 _ ltac:(lia) eq_refl); apply (nth_error_In _ 6%nat); reflexivity|exact H]|]. clear s H. intros s H.
  eapply ends_bind; [apply (speed_out 128 _ _ ltac:(lia)); [apply (asm_out 7 128 _ ltac:(lia) eq_refl); apply (nth_error_In _ 6%nat); reflexivity|exact H]|]. clear s H. intros s H.
  eapply ends_bind; [apply (compare_out 128 ntt_gs_std2rev128_asm ntt_gs_std2rev128_base); [apply (nth_error_In _ 14%nat); reflexivity|exact H]|]. clear s H. intros s H.
  eapply ends_bind; [apply (speed_out 128 _ _ ltac:(lia)); [apply (c_out 7 128 _ ltac:(lia) eq_refl); apply (nth_error_In _ 3%nat); reflexivity|exact H]|]. clear s H. intros s H.
  eapply ends_bind; [apply (speed_out 128 _ _ ltac:(lia)); [apply (asm_out 7 128 _ ltac:(lia) eq_refl); apply (nth_error_In _ 3%nat); reflexivity|exact H]|]. clear s H. intros s H.
  eapply ends_bind; [apply (compare_out 128 nttmul_gs_std2rev128_asm nttmul_gs_std2rev128_base); [apply (nth_error_In _ 15%nat); reflexivity|exact H]|]. clear s H. intros s H.
  eapply ends_bind; [apply (speed_out 128 _ _ ltac:(lia)); [apply (c_out 7 128 _ ltac:(lia) eq_refl); apply (nth_error_In _ 7%nat); reflexivity|exact H]|]. clear s H. intros s H.
  apply (speed_out 128 _ _ ltac:(lia)); [apply (asm_out 7 128 _ ltac:(lia) eq_refl); apply (nth_error_In _ 7%nat); reflexivity|exact H].
Qed.
Lemma tests256_out s : whole s -> ends bad (tests256 rnd clk stk s) whole.
Proof.
  intros H. unfold tests256.
  eapply ends_bind; [apply (compare_out 256 ntt_ct_rev2std256_asm ntt_ct_rev2std256_base); [apply (nth_error_In _ 16%nat); reflexivity|exact H]|]. clear s H. intros s H.
  eapply ends_bind; [apply (speed_out 256 _ _ ltac:(lia)); [apply (c_out 8 256 _ ltac:(lia) eq_refl); apply (nth_error_In _ 0%nat); reflexivity|exact H]|]. clear s H. intros s H.
  eapply ends_bind; [apply (speed_out 256 _ _ ltac:(lia)); [apply (asm_out 8 256 _ ltac:(lia) eq_refl); apply (nth_error_In _ 0%nat); reflexivity|exact H]|]. clear s H. intros s H.
  eapply ends_bind; [apply (compare_out 256 mulntt_ct_rev2std256_asm mulntt_ct_rev2std256_base); [apply (nth_error_In _ 17%nat); reflexivity|exact H]|]. clear s H. intros s H.
  eapply ends_bind; [apply (speed_out 256 _ _ ltac:(lia)); [apply (c_out 8 256 _ ltac:(lia) eq_refl); apply (nth_error_In _ 4%nat); reflexivity|exact H]|]. clear s H. intros s H.
  eapply ends_bind; [apply (speed_out 256 _ _ ltac:(lia)); [apply (asm_out 8 256 _ ltac:(lia) eq_refl); apply (nth_error_In _ 4%nat); reflexivity|exact H]|]. clear s H. intros s H.
  eapply ends_bind; [apply (compare_out 256 ntt_ct_std2rev256_asm ntt_ct_std2rev256_base); [apply (nth_error_In _ 18%nat); reflexivity|exact H]|]. clear s H. intros s H.
  eapply ends_bind; [apply (speed_out 256 _ _ ltac:(lia)); [apply (c_out 8 256 _ ltac:(lia) eq_refl); apply (nth_error_In _ 1%nat); reflexivity|exact H]|]. clear s H. intros s H.
  eapply ends_bind; [apply (speed_out 256 _ _ ltac:(lia)); [apply (asm_out 8 256 _ ltac:(lia) eq_refl); apply (nth_error_In _ 1%nat); reflexivity|exact H]|]. clear s H. intros s H.
  eapply ends_bind; [apply (compare_out 256 mulntt_ct_std2rev256_asm mulntt_ct_std2rev256_base); [apply (nth_error_In _ 19%nat); reflexivity|exact H]|]. clear s H. intros s H.
  eapply ends_bind; [apply (speed_out 256 _ _ ltac:(lia)); [apply (c_out 8 256 _ ltac:(lia) eq_refl); apply (nth_error_In _ 5%nat); reflexivity|exact H]|]. clear s H. intros s H.
  eapply ends_bind; [apply (speed_out 256 _ _ ltac:(lia)); [apply (asm_out 8 256 _ ltac:(lia) eq_refl); apply (nth_error_In _ 5%nat); reflexivity|exact H]|]. clear s H. intros s H.
  eapply ends_bind; [apply (compare_out 256 ntt_gs_rev2std256_asm ntt_gs_rev2std256_base); [apply (nth_error_In _ 20%nat); reflexivity|exact H]|]. clear s H. intros s H.
  eapply ends_bind; [apply (speed_out 256 _ _ ltac:(lia)); [apply (c_out 8 256 _ ltac:(lia) eq_refl); apply (nth_error_In _ 2%nat); reflexivity|exact H]|]. clear s H. intros s H.
  eapply ends_bind; [apply (speed_out 256 _ _ ltac:(lia)); [apply (asm_out 8 256 _ ltac:(lia) eq_refl); apply (nth_error_In _ 2%nat); reflexivity|exact H]|]. clear s H. intros s H.
  eapply ends_bind; [apply (compare_out 256 nttmul_gs_rev2std256_asm nttmul_gs_rev2std256_base); [apply (nth_error_In _ 21%nat); reflexivity|exact H]|]. clear s H. intros s H.
  eapply ends_bind; [apply (speed_out 256 _ _ ltac:(lia)); [apply (c_out 8 256 _ ltac:(lia) eq_refl); apply (nth_error_In _ 6%nat); reflexivity|exact H]|]. clear s H. intros s H.
  eapply ends_bind; [apply (speed_out 256 _ _ ltac:(lia)); [apply (asm_out 8 256 _ ltac:(lia) eq_refl); apply (nth_error_In _ 6%nat); reflexivity|exact H]|]. clear s H. intros s H.
  eapply ends_bind; [apply (compare_out 256 ntt_gs_std2rev256_asm ntt_gs_std2rev256_base); [apply (nth_error_In _ 22%nat); reflexivity|exact H]|]. clear s H. intros s H.
  eapply ends_bind; [apply (speed_out 256 _ _ ltac:(lia)); [apply (c_out 8 256 _ ltac:(lia) eq_refl); apply (nth_error_In _ 3%nat); reflexivity|exact H]|]. clear s H. intros s H.
  eapply ends_bind; [apply (speed_out 256 _ _ ltac:(lia)); [apply (asm_out 8 256 _ ltac:(lia) eq_refl); apply (nth_error_In _ 3%nat); reflexivity|exact H]|]. clear s H. intros s H.
  eapply ends_bind; [apply (compare_out 256 nttmul_gs_std2rev256_asm nttmul_gs_std2rev256_base); [apply (nth_error_In _ 23%nat); reflexivity|exact H]|]. clear s H. intros s H.
  eapply ends_bind; [apply (speed_out 256 _ _ ltac:(lia)); [apply (c_out 8 256 _ ltac:(lia) eq_refl); apply (nth_error_In _ 7%nat); reflexivity|exact H]|]. clear s H. intros s H.
  apply (speed_out 256 _ _ ltac:(lia)); [apply (asm_out 8 256 _ ltac:(lia) eq_refl); apply (nth_error_In _ 7%nat); reflexivity|exact H].
Qed.
Lemma tests512_out s : whole s -> ends bad (tests512 rnd clk stk s) whole.
Proof.
  intros H. unfold tests512.
  eapply ends_bind; [apply (compare_out 512 ntt_ct_rev2std512_asm ntt_ct_rev2std512_base); [apply (nth_error_In _ 24%nat); reflexivity|exact H]|]. clear s H. intros s H.
  eapply ends_bind; [apply (speed_out 512 _ _ ltac:(lia)); [apply (c_out 9 512 _ ltac:(lia) eq_refl); apply (nth_error_In _ 0%nat); reflexivity|exact H]|]. clear s H. intros s H.
  eapply ends_bind; [apply (speed_out 512 _ _ ltac:(lia)); [apply (asm_out 9 512 _ ltac:(lia) eq_refl); apply (nth_error_In _ 0%nat); reflexivity|exact H]|]. clear s H. intros s H.
  eapply ends_bind; [apply (compare_out 512 mulntt_ct_rev2std512_asm mulntt_ct_rev2std512_base); [apply (nth_error_In _ 25%nat); reflexivity|exact H]|]. clear s H. intros s H.
  eapply ends_bind; [apply (speed_out 512 _ _ ltac:(lia)); [apply (c_out 9 512 _ ltac:(lia) eq_refl); apply (nth_error_In _ 4%nat); reflexivity|exact H]|]. clear s H. intros s H.
  eapply ends_bind; [apply (speed_out 512 _ _ ltac:(lia)); [apply (asm_out 9 512 _ ltac:(lia) eq_refl); apply (nth_error_In _ 4%nat); reflexivity|exact H]|]. clear s H. intros s H.
  eapply ends_bind; [apply (compare_out 512 ntt_ct_std2rev512_asm ntt_ct_std2rev512_base); [apply (nth_error_In _ 26%nat); reflexivity|exact H]|]. clear s H. intros s H.
  eapply ends_bind; [apply (speed_out 512 _ _ ltac:(lia)); [apply (c_out 9 512 _ ltac:(lia) eq_refl); apply (nth_error_In _ 1%nat); reflexivity|exact H]|]. clear s H. intros s H.
  eapply ends_bind; [apply (speed_out 512 _ _ ltac:(lia)); [apply (asm_out 9 512 _ ltac:(lia) eq_refl); apply (nth_error_In _ 1%nat); reflexivity|exact H]|]. clear s H. intros s H.
  eapply ends_bind; [apply (compare_out 512 mulntt_ct_std2rev512_asm mulntt_ct_std2rev512_base); [apply (nth_error_In _ 27%nat); reflexivity|exact H]|]. clear s H. intros s H.
  eapply ends_bind; [apply (speed_out 512 _ _ ltac:(lia)); [apply (c_out 9 512 _ ltac:(lia) eq_refl); apply (nth_error_In _ 5%nat); reflexivity|exact H]|]. clear s H. intros s H.
  eapply ends_bind; [apply (speed_out 512 _ _ ltac:(lia)); [apply (asm_out 9 512 _ ltac:(lia) eq_refl); apply (nth_error_In _ 5%nat); reflexivity|exact H]|]. clear s H. intros s H.
  eapply ends_bind; [apply (compare_out 512 ntt_gs_rev2std512_asm ntt_gs_rev2std512_base); [apply (nth_error_In _ 28%nat); reflexivity|exact H]|]. clear s H. intros s H.
  eapply ends_bind; [apply (speed_out 512 _ _ ltac:(lia)); [apply (c_out 9 512 _ ltac:(lia) eq_refl); apply (nth_error_In _ 2%nat); reflexivity|exact H]|]. clear s H. intros s H.
  eapply ends_bind; [apply (speed_out 512 _ _ ltac:(lia)); [apply (asm_out 9 512 _ ltac:(lia) eq_refl); apply (nth_error_In _ 2%nat); reflexivity|exact H]|]. clear s H. intros s H.
  eapply ends_bind; [apply (compare_out 512 nttmul_gs_rev2std512_asm nttmul_gs_rev2std512_base); [apply (nth_error_In _ 29%nat); reflexivity|exact H]|]. clear s H. intros s H.
  eapply ends_bind; [apply (speed_out 512 _ _ ltac:(lia)); [apply (c_out 9 512 _ ltac:(lia) eq_refl); apply (nth_error_In _ 6%nat); reflexivity|exact H]|]. clear s H. intros s H.
  eapply ends_bind; [apply (speed_out 512 _ _ ltac:(lia)); [apply (asm_out 9 512 _ ltac:(lia) eq_refl); apply (nth_error_In _ 6%nat); reflexivity|exact H]|]. clear s H. intros s H.
  eapply ends_bind; [apply (compare_out 512 ntt_gs_std2rev512_asm ntt_gs_std2rev512_base); [apply (nth_error_In _ 30%nat); reflexivity|exact H]|]. clear s H. intros s H.
  eapply ends_bind; [apply (speed_out 512 _ _ ltac:(lia)); [apply (c_out 9 512 _ ltac:(lia) eq_refl); apply (nth_error_In _ 3%nat); reflexivity|exact H]|]. clear s H. intros s H.
  eapply ends_bind; [apply (speed_out 512 _ _ ltac:(lia)); [apply (asm_out 9 512 _ ltac:(lia) eq_refl); apply (nth_error_In _ 3%nat); reflexivity|exact H]|]. clear s H. intros s H.
  eapply ends_bind; [apply (compare_out 512 nttmul_gs_std2rev512_asm nttmul_gs_std2rev512_base); [apply (nth_error_In _ 31%nat); reflexivity|exact H]|]. clear s H. intros s H.
  eapply ends_bind; [apply (speed_out 512 _ _ ltac:(lia)); [apply (c_out 9 512 _ ltac:(lia) eq_refl); apply (nth_error_In _ 7%nat); reflexivity|exact H]|]. clear s H. intros s H.
  apply (speed_out 512 _ _ ltac:(lia)); [apply (asm_out 9 512 _ ltac:(lia) eq_refl); apply (nth_error_In _ 7%nat); reflexivity|exact H].
Qed.
Lemma tests1024_out s : whole s -> ends bad (tests1024 rnd clk stk s) whole.
Proof.
  intros H. unfold tests1024.
  eapply ends_bind; [apply (compare_out 1024 ntt_ct_rev2std1024_asm ntt_ct_rev2std1024_base); [apply (nth_error_In _ 32%nat); reflexivity|exact H]|]. clear s H. intros s H.
  eapply ends_bind; [apply (speed_out 1024 _ _ ltac:(lia)); [apply (c_out 10 1024 _ ltac:(lia) eq_refl); apply (nth_error_In _ 0%nat); reflexivity|exact H]|]. clear s H. intros s H.
  eapply ends_bind; [apply (speed_out 1024 _ _ ltac:(lia)); [apply (asm_out 10 1024 _ ltac:(lia) eq_refl); apply (nth_error_In _ 0%nat); reflexivity|exact H]|]. clear s H. intros s H.
  eapply ends_bind; [apply (compare_out 1024 mulntt_ct_rev2std1024_asm mulntt_ct_rev2std1024_base); [apply (nth_error_In _ 33%nat); reflexivity|exact H]|]. clear s H. intros s H.
  eapply ends_bind; [apply (speed_out 1024 _ _ ltac:(lia)); [apply (c_out 10 1024 _ ltac:(lia) eq_refl); apply (nth_error_In _ 4%nat); reflexivity|exact H]|]. clear s H. intros s H.
  eapply ends_bind; [apply (speed_out 1024 _ _ ltac:(lia)); [apply (asm_out 10 1024 _ ltac:(lia) eq_refl); apply (nth_error_In _ 4%nat); reflexivity|exact H]|]. clear s H. intros s H.
  eapply ends_bind; [apply (compare_out 1024 ntt_ct_std2rev1024_asm ntt_ct_std2rev1024_base); [apply (nth_error_In _ 34%nat); reflexivity|exact H]|]. clear s H. intros s H.
  eapply ends_bind; [apply (speed_out 1024 _ _ ltac:(lia)); [apply (c_out 10 1024 _ ltac:(lia) eq_refl); apply (nth_error_In _ 1%nat); reflexivity|exact H]|]. clear s H. intros s H.
  eapply ends_bind; [apply (speed_out 1024 _ _ ltac:(lia)); [apply (asm_out 10 1024 _ ltac:(lia) eq_refl); apply (nth_error_In _ 1%nat); reflexivity|exact H]|]. clear s H. intros s H.
  eapply ends_bind; [apply (compare_out 1024 mulntt_ct_std2rev1024_asm mulntt_ct_std2rev1024_base); [apply (nth_error_In _ 35%nat); reflexivity|exact H]|]. clear s H. intros s H.
  eapply ends_bind; [apply (speed_out 1024 _ _ ltac:(lia)); [apply (c_out 10 1024 _ ltac:(lia) eq_refl); apply (nth_error_In _ 5%nat); reflexivity|exact H]|]. clear s H. intros s H.
  eapply ends_bind; [apply (speed_out 1024 _ _ ltac:(lia)); [apply (asm_out 10 1024 _ ltac:(lia) eq_refl); apply (nth_error_In _ 5%nat); reflexivity|exact H]|]. clear s H. intros s H.
  eapply ends_bind; [apply (compare_out 1024 ntt_gs_rev2std1024_asm ntt_gs_rev2std1024_base); [apply (nth_error_In _ 36%nat); reflexivity|exact H]|]. clear s H. intros s H.
  eapply ends_bind; [apply (speed_out 1024 _ _ ltac:(lia)); [apply (c_out 10 1024 _ ltac:(lia) eq_refl); apply (nth_error_In _ 2%nat); reflexivity|exact H]|]. clear s H. intros s H.
  eapply ends_bind; [apply (speed_out 1024 _ _ ltac:(lia)); [apply (asm_out 10 1024 _ ltac:(lia) eq_refl); apply (nth_error_In _ 2%nat); reflexivity|exact H]|]. clear s H. intros s H.
  eapply ends_bind; [apply (compare_out 1024 nttmul_gs_rev2std1024_asm nttmul_gs_rev2std1024_base); [apply (nth_error_In _ 37%nat); reflexivity|exact H]|]. clear s H. intros s H.
  eapply ends_bind; [apply (speed_out 1024 _ _ ltac:(lia)); [apply (c_out 10 1024 _ ltac:(lia) eq_refl); apply (nth_error_In _ 6%nat); reflexivity|exact H]|]. clear s H. intros s H.
  eapply ends_bind; [apply (speed_out 1024 _ _ ltac:(lia)); [apply (asm_out 10 1024 _ ltac:(lia) eq_refl); apply (nth_error_In _ 6%nat); reflexivity|exact H]|]. clear s H. intros s H.
  eapply ends_bind; [apply (compare_out 1024 ntt_gs_std2rev1024_asm ntt_gs_std2rev1024_base); [apply (nth_error_In _ 38%nat); reflexivity|exact H]|]. clear s H. intros s H.
  eapply ends_bind; [apply (speed_out 1024 _ _ ltac:(lia)); [apply (c_out 10 1024 _ ltac:(lia) eq_refl); apply (nth_error_In _ 3%nat); reflexivity|exact H]|]. clear s H. intros s H.
  eapply ends_bind; [apply (speed_out 1024 _ _ ltac:(lia)); [apply (asm_out 10 1024 _ ltac:(lia) eq_refl); apply (nth_error_In _ 3%nat); reflexivity|exact H]|]. clear s H. intros s H.
  eapply ends_bind; [apply (compare_out 1024 nttmul_gs_std2rev1024_asm nttmul_gs_std2rev1024_base); [apply (nth_error_In _ 39%nat); reflexivity|exact H]|]. clear s H. intros s H.
  eapply ends_bind; [apply (speed_out 1024 _ _ ltac:(lia)); [apply (c_out 10 1024 _ ltac:(lia) eq_refl); apply (nth_error_In _ 7%nat); reflexivity|exact H]|]. clear s H. intros s H.
  apply (speed_out 1024 _ _ ltac:(lia)); [apply (asm_out 10 1024 _ ltac:(lia) eq_refl); apply (nth_error_In _ 7%nat); reflexivity|exact H].
Qed.
Lemma tests2048_out s : whole s -> ends bad (tests2048 rnd clk stk s) whole.
Proof.
  intros H. unfold tests2048.
  eapply ends_bind; [apply (compare_out 2048 ntt_ct_rev2std2048_asm ntt_ct_rev2std2048_base); [apply (nth_error_In _ 40%nat); reflexivity|exact H]|]. clear s H. intros s H.
  eapply ends_bind; [apply (speed_out 2048 _ _ ltac:(lia)); [apply (c_out 11 2048 _ ltac:(lia) eq_refl); apply (nth_error_In _ 0%nat); reflexivity|exact H]|]. clear s H. intros s H.
  eapply ends_bind; [apply (speed_out 2048 _ _ ltac:(lia)); [apply (asm_out 11 2048 _ ltac:(lia) eq_refl); apply (nth_error_In _ 0%nat); reflexivity|exact H]|]. clear s H. intros s H.
  eapply ends_bind; [apply (compare_out 2048 mulntt_ct_rev2std2048_asm mulntt_ct_rev2std2048_base); [apply (nth_error_In _ 41%nat); reflexivity|exact H]|]. clear s H. intros s H.
  eapply ends_bind; [apply (speed_out 2048 _ _ ltac:(lia)); [apply (c_out 11 2048 _ ltac:(lia) eq_refl); apply (nth_error_In _ 4%nat); reflexivity|exact H]|]. clear s H. intros s H.
  eapply ends_bind; [apply (speed_out 2048 _ _ ltac:(lia)); [apply (asm_out 11 2048 _ ltac:(lia) eq_refl); apply (nth_error_In _ 4%nat); reflexivity|exact H]|]. clear s H. intros s H.
  eapply ends_bind; [apply (compare_out 2048 ntt_ct_std2rev2048_asm ntt_ct_std2rev2048_base); [apply (nth_error_In _ 42%nat); reflexivity|exact H]|]. clear s H. intros s H.
  eapply ends_bind; [apply (speed_out 2048 _ _ ltac:(lia)); [apply (c_out 11 2048 _ ltac:(lia) eq_refl); apply (nth_error_In _ 1%nat); reflexivity|exact H]|]. clear s H. intros s H.
  eapply ends_bind; [apply (speed_out 2048 _ _ ltac:(lia)); [apply (asm_out 11 2048 _ ltac:(lia) eq_refl); apply (nth_error_In _ 1%nat); reflexivity|exact H]|]. clear s H. intros s H.
  eapply ends_bind; [apply (compare_out 2048 mulntt_ct_std2rev2048_asm mulntt_ct_std2rev2048_base); [apply (nth_error_In _ 43%nat); reflexivity|exact H]|]. clear s H. intros s H.
  eapply ends_bind; [apply (speed_out 2048 _ _ ltac:(lia)); [apply (c_out 11 2048 _ ltac:(lia) eq_refl); apply (nth_error_In _ 5%nat); reflexivity|exact H]|]. clear s H. intros s H.
  eapply ends_bind; [apply (speed_out 2048 _ _ ltac:(lia)); [apply (asm_out 11 2048 _ ltac:(lia) eq_refl); apply (nth_error_In _ 5%nat); reflexivity|exact H]|]. clear s H. intros s H.
  eapply ends_bind; [apply (compare_out 2048 ntt_gs_rev2std2048_asm ntt_gs_rev2std2048_base); [apply (nth_error_In _ 44%nat); reflexivity|exact H]|]. clear s H. intros s H.
  eapply ends_bind; [apply (speed_out 2048 _ _ ltac:(lia)); [apply (c_out 11 2048 _ ltac:(lia) eq_refl); apply (nth_error_In _ 2%nat); reflexivity|exact H]|]. clear s H. intros s H.
  eapply ends_bind; [apply (speed_out 2048 _ _ ltac:(lia)); [apply (asm_out 11 2048 _ ltac:(lia) eq_refl); apply (nth_error_In _ 2%nat); reflexivity|exact H]|]. clear s H. intros s H.
  eapply ends_bind; [apply (compare_out 2048 nttmul_gs_rev2std2048_asm nttmul_gs_rev2std2048_base); [apply (nth_error_In _ 45%nat); reflexivity|exact H]|]. clear s H. intros s H.
  eapply ends_bind; [apply (speed_out 2048 _ _ ltac:(lia)); [apply (c_out 11 2048 _ ltac:(lia) eq_refl); apply (nth_error_In _ 6%nat); reflexivity|exact H]|]. clear s H. intros s H.
  eapply ends_bind; [apply (speed_out 2048 _ _ ltac:(lia)); [apply (asm_out 11 2048 _ ltac:(lia) eq_refl); apply (nth_error_In _ 6%nat); reflexivity|exact H]|]. clear s H. intros s H.
  eapply ends_bind; [apply (compare_out 2048 ntt_gs_std2rev2048_asm ntt_gs_std2rev2048_base); [apply (nth_error_In _ 46%nat); reflexivity|exact H]|]. clear s H. intros s H.
  eapply ends_bind; [apply (speed_out 2048 _ _ ltac:(lia)); [apply (c_out 11 2048 _ ltac:(lia) eq_refl); apply (nth_error_In _ 3%nat); reflexivity|exact H]|]. clear s H. intros s H.
  eapply ends_bind; [apply (speed_out 2048 _ _ ltac:(lia)); [apply (asm_out 11 2048 _ ltac:(lia) eq_refl); apply (nth_error_In _ 3%nat); reflexivity|exact H]|]. clear s H. intros s H.
  eapply ends_bind; [apply (compare_out 2048 nttmul_gs_std2rev2048_asm nttmul_gs_std2rev2048_base); [apply (nth_error_In _ 47%nat); reflexivity|exact H]|]. clear s H. intros s H.
  eapply ends_bind; [apply (speed_out 2048 _ _ ltac:(lia)); [apply (c_out 11 2048 _ ltac:(lia) eq_refl); apply (nth_error_In _ 7%nat); reflexivity|exact H]|]. clear s H. intros s H.
  apply (speed_out 2048 _ _ ltac:(lia)); [apply (asm_out 11 2048 _ ltac:(lia) eq_refl); apply (nth_error_In _ 7%nat); reflexivity|exact H].
Qed.

Lemma main_out b : ends bad (main rnd clk stk b) (fun v => v = 0).
Proof.
  unfold main. destruct b; [|reflexivity]. unfold run_tests.
  assert (H0 : whole (zeros NTESTS, zeros 2048, zeros 2048, 0, 0)).
  { cbn [whole]. unfold zlen, zeros. rewrite !repeat_length. split; [apply Z2Nat.id; exact (proj1 NTESTS_range)|]. split; reflexivity. }
  assert (X : ends bad (do s <- tests16 rnd clk stk (zeros NTESTS, zeros 2048, zeros 2048, 0, 0); do s <- tests128 rnd clk stk s;
    do s <- tests256 rnd clk stk s; do s <- tests512 rnd clk stk s; do s <- tests1024 rnd clk stk s; tests2048 rnd clk stk s) whole).
  { eapply ends_bind; [apply tests16_out, H0|]. clear H0. intros s H.
    eapply ends_bind; [apply tests128_out, H|]. clear s H. intros s H.
    eapply ends_bind; [apply tests256_out, H|]. clear s H. intros s H.
    eapply ends_bind; [apply tests512_out, H|]. clear s H. intros s H.
    eapply ends_bind; [apply tests1024_out, H|]. clear s H. intros s H.
    apply tests2048_out, H. }
  revert X. set (m := do s <- tests16 _ _ _ _; _). destruct m as [s|e]; cbn; auto.
Qed.
End Program.

Lemma test_ntt_avx_outcomes_L : forall rnd clk stk, (forall k, 0 <= rnd k < 2 ^ 31) ->
  (forall n r i, 0 <= n -> zlen (stk n r i) = n) ->
  main rnd clk stk true = Ok 0 \/ main rnd clk stk true = Err SignedOverflow \/ main rnd clk stk true = Err AssertFail.
Proof.
  intros rnd clk stk Hr Hs. assert (X := main_out rnd clk stk Hr Hs true). destruct (main rnd clk stk true) as [v|e]; cbn [ends] in X.
  - left. congruence.
  - right. destruct X as [X | X]; rewrite X; auto.
Qed.
