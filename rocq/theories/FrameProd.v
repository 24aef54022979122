(** The products on longer arrays. *)

From Coq Require Import ZArith List Bool Lia.
From Verif Require Import CSem FrameElem FrameC FrameAvx.
From Verif Require ModelNtt ModelNaive ModelRed ModelAvx ModelProducts ModelAvxProd.
Import ListNotations.
Open Scope Z_scope.

(** the tables stay as they are *)
Lemma k_fr_mul_array16 s a n p : sim (fr s) (ModelNtt.mul_array16 a n p) (ModelNtt.mul_array16 (a ++ s) n p).
Proof. pose proof (fr_mul_array16 s [] a n p) as H. rewrite app_nil_r in H. exact H. Qed.
Lemma k_fr_ntt_ct_rev2std_v1 s a n p : sim (fr s) (ModelNtt.ntt_ct_rev2std_v1 a n p) (ModelNtt.ntt_ct_rev2std_v1 (a ++ s) n p).
Proof. pose proof (fr_ntt_ct_rev2std_v1 s [] a n p) as H. rewrite app_nil_r in H. exact H. Qed.
Lemma k_fr_ntt_ct_rev2std s a n p : sim (fr s) (ModelNtt.ntt_ct_rev2std a n p) (ModelNtt.ntt_ct_rev2std (a ++ s) n p).
Proof. pose proof (fr_ntt_ct_rev2std s [] a n p) as H. rewrite app_nil_r in H. exact H. Qed.
Lemma k_fr_mulntt_ct_rev2std s a n p : sim (fr s) (ModelNtt.mulntt_ct_rev2std a n p) (ModelNtt.mulntt_ct_rev2std (a ++ s) n p).
Proof. pose proof (fr_mulntt_ct_rev2std s [] a n p) as H. rewrite app_nil_r in H. exact H. Qed.
Lemma k_fr_ntt_ct_std2rev s a n p : sim (fr s) (ModelNtt.ntt_ct_std2rev a n p) (ModelNtt.ntt_ct_std2rev (a ++ s) n p).
Proof. pose proof (fr_ntt_ct_std2rev s [] a n p) as H. rewrite app_nil_r in H. exact H. Qed.
Lemma k_fr_mulntt_ct_std2rev s a n p : sim (fr s) (ModelNtt.mulntt_ct_std2rev a n p) (ModelNtt.mulntt_ct_std2rev (a ++ s) n p).
Proof. pose proof (fr_mulntt_ct_std2rev s [] a n p) as H. rewrite app_nil_r in H. exact H. Qed.
Lemma k_fr_ntt_gs_rev2std s a n p : sim (fr s) (ModelNtt.ntt_gs_rev2std a n p) (ModelNtt.ntt_gs_rev2std (a ++ s) n p).
Proof. pose proof (fr_ntt_gs_rev2std s [] a n p) as H. rewrite app_nil_r in H. exact H. Qed.
Lemma k_fr_nttmul_gs_rev2std s a n p : sim (fr s) (ModelNtt.nttmul_gs_rev2std a n p) (ModelNtt.nttmul_gs_rev2std (a ++ s) n p).
Proof. pose proof (fr_nttmul_gs_rev2std s [] a n p) as H. rewrite app_nil_r in H. exact H. Qed.
Lemma k_fr_ntt_gs_std2rev s a n p : sim (fr s) (ModelNtt.ntt_gs_std2rev a n p) (ModelNtt.ntt_gs_std2rev (a ++ s) n p).
Proof. pose proof (fr_ntt_gs_std2rev s [] a n p) as H. rewrite app_nil_r in H. exact H. Qed.
Lemma k_fr_nttmul_gs_std2rev s a n p : sim (fr s) (ModelNtt.nttmul_gs_std2rev a n p) (ModelNtt.nttmul_gs_std2rev (a ++ s) n p).
Proof. pose proof (fr_nttmul_gs_std2rev s [] a n p) as H. rewrite app_nil_r in H. exact H. Qed.
Lemma k_fr_mul_reduce_array16 s a n p : sim (fr s) (ModelRed.mul_reduce_array16 a n p) (ModelRed.mul_reduce_array16 (a ++ s) n p).
Proof. pose proof (fr_mul_reduce_array16 s [] a n p) as H. rewrite app_nil_r in H. exact H. Qed.
Lemma k_fr_ntt_red_ct_rev2std s a n p : sim (fr s) (ModelRed.ntt_red_ct_rev2std a n p) (ModelRed.ntt_red_ct_rev2std (a ++ s) n p).
Proof. pose proof (fr_ntt_red_ct_rev2std s [] a n p) as H. rewrite app_nil_r in H. exact H. Qed.
Lemma k_fr_mulntt_red_ct_rev2std s a n p : sim (fr s) (ModelRed.mulntt_red_ct_rev2std a n p) (ModelRed.mulntt_red_ct_rev2std (a ++ s) n p).
Proof. pose proof (fr_mulntt_red_ct_rev2std s [] a n p) as H. rewrite app_nil_r in H. exact H. Qed.
Lemma k_fr_ntt_red_ct_std2rev s a n p : sim (fr s) (ModelRed.ntt_red_ct_std2rev a n p) (ModelRed.ntt_red_ct_std2rev (a ++ s) n p).
Proof. pose proof (fr_ntt_red_ct_std2rev s [] a n p) as H. rewrite app_nil_r in H. exact H. Qed.
Lemma k_fr_mulntt_red_ct_std2rev s a n p : sim (fr s) (ModelRed.mulntt_red_ct_std2rev a n p) (ModelRed.mulntt_red_ct_std2rev (a ++ s) n p).
Proof. pose proof (fr_mulntt_red_ct_std2rev s [] a n p) as H. rewrite app_nil_r in H. exact H. Qed.
Lemma k_fr_ntt_red_gs_rev2std s a n p : sim (fr s) (ModelRed.ntt_red_gs_rev2std a n p) (ModelRed.ntt_red_gs_rev2std (a ++ s) n p).
Proof. pose proof (fr_ntt_red_gs_rev2std s [] a n p) as H. rewrite app_nil_r in H. exact H. Qed.
Lemma k_fr_nttmul_red_gs_rev2std s a n p : sim (fr s) (ModelRed.nttmul_red_gs_rev2std a n p) (ModelRed.nttmul_red_gs_rev2std (a ++ s) n p).
Proof. pose proof (fr_nttmul_red_gs_rev2std s [] a n p) as H. rewrite app_nil_r in H. exact H. Qed.
Lemma k_fr_ntt_red_gs_std2rev s a n p : sim (fr s) (ModelRed.ntt_red_gs_std2rev a n p) (ModelRed.ntt_red_gs_std2rev (a ++ s) n p).
Proof. pose proof (fr_ntt_red_gs_std2rev s [] a n p) as H. rewrite app_nil_r in H. exact H. Qed.
Lemma k_fr_nttmul_red_gs_std2rev s a n p : sim (fr s) (ModelRed.nttmul_red_gs_std2rev a n p) (ModelRed.nttmul_red_gs_std2rev (a ++ s) n p).
Proof. pose proof (fr_nttmul_red_gs_std2rev s [] a n p) as H. rewrite app_nil_r in H. exact H. Qed.
Lemma k_fr_mul_array16_naive s a n p m : sim (fr s) (ModelNaive.mul_array16_naive a n p m) (ModelNaive.mul_array16_naive (a ++ s) n p m).
Proof. pose proof (fr_mul_array16_naive s [] a n p m) as H. rewrite app_nil_r in H. exact H. Qed.
Lemma k_fr_ntt_ct_rev2std_naive s a n p m : sim (fr s) (ModelNaive.ntt_ct_rev2std_naive a n p m) (ModelNaive.ntt_ct_rev2std_naive (a ++ s) n p m).
Proof. pose proof (fr_ntt_ct_rev2std_naive s [] a n p m) as H. rewrite app_nil_r in H. exact H. Qed.
Lemma k_fr_mulntt_ct_rev2std_naive s a n p m : sim (fr s) (ModelNaive.mulntt_ct_rev2std_naive a n p m) (ModelNaive.mulntt_ct_rev2std_naive (a ++ s) n p m).
Proof. pose proof (fr_mulntt_ct_rev2std_naive s [] a n p m) as H. rewrite app_nil_r in H. exact H. Qed.
Lemma k_fr_ntt_ct_std2rev_naive s a n p m : sim (fr s) (ModelNaive.ntt_ct_std2rev_naive a n p m) (ModelNaive.ntt_ct_std2rev_naive (a ++ s) n p m).
Proof. pose proof (fr_ntt_ct_std2rev_naive s [] a n p m) as H. rewrite app_nil_r in H. exact H. Qed.
Lemma k_fr_mulntt_ct_std2rev_naive s a n p m : sim (fr s) (ModelNaive.mulntt_ct_std2rev_naive a n p m) (ModelNaive.mulntt_ct_std2rev_naive (a ++ s) n p m).
Proof. pose proof (fr_mulntt_ct_std2rev_naive s [] a n p m) as H. rewrite app_nil_r in H. exact H. Qed.
Lemma k_fr_ntt_gs_rev2std_naive s a n p m : sim (fr s) (ModelNaive.ntt_gs_rev2std_naive a n p m) (ModelNaive.ntt_gs_rev2std_naive (a ++ s) n p m).
Proof. pose proof (fr_ntt_gs_rev2std_naive s [] a n p m) as H. rewrite app_nil_r in H. exact H. Qed.
Lemma k_fr_nttmul_gs_rev2std_naive s a n p m : sim (fr s) (ModelNaive.nttmul_gs_rev2std_naive a n p m) (ModelNaive.nttmul_gs_rev2std_naive (a ++ s) n p m).
Proof. pose proof (fr_nttmul_gs_rev2std_naive s [] a n p m) as H. rewrite app_nil_r in H. exact H. Qed.
Lemma k_fr_ntt_gs_std2rev_naive s a n p m : sim (fr s) (ModelNaive.ntt_gs_std2rev_naive a n p m) (ModelNaive.ntt_gs_std2rev_naive (a ++ s) n p m).
Proof. pose proof (fr_ntt_gs_std2rev_naive s [] a n p m) as H. rewrite app_nil_r in H. exact H. Qed.
Lemma k_fr_nttmul_gs_std2rev_naive s a n p m : sim (fr s) (ModelNaive.nttmul_gs_std2rev_naive a n p m) (ModelNaive.nttmul_gs_std2rev_naive (a ++ s) n p m).
Proof. pose proof (fr_nttmul_gs_std2rev_naive s [] a n p m) as H. rewrite app_nil_r in H. exact H. Qed.
Lemma k_fr_mul_reduce_array16_asm s a n p : sim (fr s) (ModelAvx.mul_reduce_array16_asm a n p) (ModelAvx.mul_reduce_array16_asm (a ++ s) n p).
Proof. pose proof (fr_mul_reduce_array16_asm s [] a n p) as H. rewrite app_nil_r in H. exact H. Qed.
Lemma k_fr_mul_reduce_array16_asm2 s a n p : sim (fr s) (ModelAvx.mul_reduce_array16_asm2 a n p) (ModelAvx.mul_reduce_array16_asm2 (a ++ s) n p).
Proof. pose proof (fr_mul_reduce_array16_asm2 s [] a n p) as H. rewrite app_nil_r in H. exact H. Qed.
Lemma k_fr_ntt_red_ct_rev2std_asm s a n p : sim (fr s) (ModelAvx.ntt_red_ct_rev2std_asm a n p) (ModelAvx.ntt_red_ct_rev2std_asm (a ++ s) n p).
Proof. pose proof (fr_ntt_red_ct_rev2std_asm s [] a n p) as H. rewrite app_nil_r in H. exact H. Qed.
Lemma k_fr_mulntt_red_ct_rev2std_asm s a n p : sim (fr s) (ModelAvx.mulntt_red_ct_rev2std_asm a n p) (ModelAvx.mulntt_red_ct_rev2std_asm (a ++ s) n p).
Proof. pose proof (fr_mulntt_red_ct_rev2std_asm s [] a n p) as H. rewrite app_nil_r in H. exact H. Qed.
Lemma k_fr_ntt_red_ct_std2rev_asm s a n p : sim (fr s) (ModelAvx.ntt_red_ct_std2rev_asm a n p) (ModelAvx.ntt_red_ct_std2rev_asm (a ++ s) n p).
Proof. pose proof (fr_ntt_red_ct_std2rev_asm s [] a n p) as H. rewrite app_nil_r in H. exact H. Qed.
Lemma k_fr_mulntt_red_ct_std2rev_asm s a n p : sim (fr s) (ModelAvx.mulntt_red_ct_std2rev_asm a n p) (ModelAvx.mulntt_red_ct_std2rev_asm (a ++ s) n p).
Proof. pose proof (fr_mulntt_red_ct_std2rev_asm s [] a n p) as H. rewrite app_nil_r in H. exact H. Qed.
Lemma k_fr_ntt_red_gs_rev2std_asm s a n p : sim (fr s) (ModelAvx.ntt_red_gs_rev2std_asm a n p) (ModelAvx.ntt_red_gs_rev2std_asm (a ++ s) n p).
Proof. pose proof (fr_ntt_red_gs_rev2std_asm s [] a n p) as H. rewrite app_nil_r in H. exact H. Qed.
Lemma k_fr_nttmul_red_gs_rev2std_asm s a n p : sim (fr s) (ModelAvx.nttmul_red_gs_rev2std_asm a n p) (ModelAvx.nttmul_red_gs_rev2std_asm (a ++ s) n p).
Proof. pose proof (fr_nttmul_red_gs_rev2std_asm s [] a n p) as H. rewrite app_nil_r in H. exact H. Qed.
Lemma k_fr_ntt_red_gs_std2rev_asm s a n p : sim (fr s) (ModelAvx.ntt_red_gs_std2rev_asm a n p) (ModelAvx.ntt_red_gs_std2rev_asm (a ++ s) n p).
Proof. pose proof (fr_ntt_red_gs_std2rev_asm s [] a n p) as H. rewrite app_nil_r in H. exact H. Qed.
Lemma k_fr_nttmul_red_gs_std2rev_asm s a n p : sim (fr s) (ModelAvx.nttmul_red_gs_std2rev_asm a n p) (ModelAvx.nttmul_red_gs_std2rev_asm (a ++ s) n p).
Proof. pose proof (fr_nttmul_red_gs_std2rev_asm s [] a n p) as H. rewrite app_nil_r in H. exact H. Qed.

Lemma fr_maybe_shift s sh n a : sim (fr s) (ModelProducts.maybe_shift sh n a) (ModelProducts.maybe_shift sh n (a ++ s)).
Proof. unfold ModelProducts.maybe_shift. destruct sh; [apply fr_shift_array|apply sim_ret; reflexivity]. Qed.
Lemma fr_maybe_shift_asm s sh n a : sim (fr s) (ModelAvxProd.maybe_shift_asm sh n a) (ModelAvxProd.maybe_shift_asm sh n (a ++ s)).
Proof. unfold ModelAvxProd.maybe_shift_asm. destruct sh; [apply fr_shift_array_asm|apply sim_ret; reflexivity]. Qed.
Ltac fp_leaf :=
  cbv beta; cbv delta [ModelProducts.n_ct_rev2std
    ModelProducts.n_gs_rev2std
    ModelProducts.n_ct_std2rev
    ModelProducts.n_gs_std2rev
    ModelProducts.n_intt_ct_rev2std
    ModelProducts.n_intt_gs_rev2std
    ModelProducts.n_intt_ct_std2rev
    ModelProducts.n_intt_gs_std2rev
    ModelProducts.n_mulntt_ct_rev2std
    ModelProducts.n_mulntt_ct_std2rev
    ModelProducts.n_inttmul_gs_rev2std
    ModelProducts.n_inttmul_gs_std2rev
    ModelProducts.v_ct_rev2std
    ModelProducts.v_gs_rev2std
    ModelProducts.v_ct_std2rev
    ModelProducts.v_gs_std2rev
    ModelProducts.v_intt_ct_rev2std
    ModelProducts.v_intt_gs_rev2std
    ModelProducts.v_intt_ct_std2rev
    ModelProducts.v_intt_gs_std2rev
    ModelProducts.v_mulntt_ct_rev2std
    ModelProducts.v_mulntt_ct_std2rev
    ModelProducts.v_inttmul_gs_rev2std
    ModelProducts.v_inttmul_gs_std2rev
    ModelProducts.r_ct_rev2std
    ModelProducts.r_gs_rev2std
    ModelProducts.r_ct_std2rev
    ModelProducts.r_gs_std2rev
    ModelProducts.r_intt_ct_rev2std
    ModelProducts.r_intt_gs_rev2std
    ModelProducts.r_intt_ct_std2rev
    ModelProducts.r_intt_gs_std2rev
    ModelProducts.r_mulntt_ct_rev2std
    ModelProducts.r_mulntt_ct_std2rev
    ModelProducts.r_inttmul_gs_rev2std
    ModelProducts.r_inttmul_gs_std2rev
    ModelAvxProd.x_ct_rev2std
    ModelAvxProd.x_gs_rev2std
    ModelAvxProd.x_ct_std2rev
    ModelAvxProd.x_gs_std2rev
    ModelAvxProd.x_intt_ct_rev2std
    ModelAvxProd.x_intt_gs_rev2std
    ModelAvxProd.x_intt_ct_std2rev
    ModelAvxProd.x_intt_gs_std2rev
    ModelAvxProd.x_mulntt_ct_rev2std
    ModelAvxProd.x_mulntt_ct_std2rev
    ModelAvxProd.x_inttmul_gs_rev2std
    ModelAvxProd.x_inttmul_gs_std2rev]; cbv beta;
  lazymatch goal with
  | |- sim _ (ModelNtt.mul_array16 _ _ _) _ => apply k_fr_mul_array16
  | |- sim _ (ModelNtt.ntt_ct_rev2std_v1 _ _ _) _ => apply k_fr_ntt_ct_rev2std_v1
  | |- sim _ (ModelNtt.ntt_ct_rev2std _ _ _) _ => apply k_fr_ntt_ct_rev2std
  | |- sim _ (ModelNtt.mulntt_ct_rev2std _ _ _) _ => apply k_fr_mulntt_ct_rev2std
  | |- sim _ (ModelNtt.ntt_ct_std2rev _ _ _) _ => apply k_fr_ntt_ct_std2rev
  | |- sim _ (ModelNtt.mulntt_ct_std2rev _ _ _) _ => apply k_fr_mulntt_ct_std2rev
  | |- sim _ (ModelNtt.ntt_gs_rev2std _ _ _) _ => apply k_fr_ntt_gs_rev2std
  | |- sim _ (ModelNtt.nttmul_gs_rev2std _ _ _) _ => apply k_fr_nttmul_gs_rev2std
  | |- sim _ (ModelNtt.ntt_gs_std2rev _ _ _) _ => apply k_fr_ntt_gs_std2rev
  | |- sim _ (ModelNtt.nttmul_gs_std2rev _ _ _) _ => apply k_fr_nttmul_gs_std2rev
  | |- sim _ (ModelRed.mul_reduce_array16 _ _ _) _ => apply k_fr_mul_reduce_array16
  | |- sim _ (ModelRed.ntt_red_ct_rev2std _ _ _) _ => apply k_fr_ntt_red_ct_rev2std
  | |- sim _ (ModelRed.mulntt_red_ct_rev2std _ _ _) _ => apply k_fr_mulntt_red_ct_rev2std
  | |- sim _ (ModelRed.ntt_red_ct_std2rev _ _ _) _ => apply k_fr_ntt_red_ct_std2rev
  | |- sim _ (ModelRed.mulntt_red_ct_std2rev _ _ _) _ => apply k_fr_mulntt_red_ct_std2rev
  | |- sim _ (ModelRed.ntt_red_gs_rev2std _ _ _) _ => apply k_fr_ntt_red_gs_rev2std
  | |- sim _ (ModelRed.nttmul_red_gs_rev2std _ _ _) _ => apply k_fr_nttmul_red_gs_rev2std
  | |- sim _ (ModelRed.ntt_red_gs_std2rev _ _ _) _ => apply k_fr_ntt_red_gs_std2rev
  | |- sim _ (ModelRed.nttmul_red_gs_std2rev _ _ _) _ => apply k_fr_nttmul_red_gs_std2rev
  | |- sim _ (ModelNaive.mul_array16_naive _ _ _ _) _ => apply k_fr_mul_array16_naive
  | |- sim _ (ModelNaive.ntt_ct_rev2std_naive _ _ _ _) _ => apply k_fr_ntt_ct_rev2std_naive
  | |- sim _ (ModelNaive.mulntt_ct_rev2std_naive _ _ _ _) _ => apply k_fr_mulntt_ct_rev2std_naive
  | |- sim _ (ModelNaive.ntt_ct_std2rev_naive _ _ _ _) _ => apply k_fr_ntt_ct_std2rev_naive
  | |- sim _ (ModelNaive.mulntt_ct_std2rev_naive _ _ _ _) _ => apply k_fr_mulntt_ct_std2rev_naive
  | |- sim _ (ModelNaive.ntt_gs_rev2std_naive _ _ _ _) _ => apply k_fr_ntt_gs_rev2std_naive
  | |- sim _ (ModelNaive.nttmul_gs_rev2std_naive _ _ _ _) _ => apply k_fr_nttmul_gs_rev2std_naive
  | |- sim _ (ModelNaive.ntt_gs_std2rev_naive _ _ _ _) _ => apply k_fr_ntt_gs_std2rev_naive
  | |- sim _ (ModelNaive.nttmul_gs_std2rev_naive _ _ _ _) _ => apply k_fr_nttmul_gs_std2rev_naive
  | |- sim _ (ModelAvx.mul_reduce_array16_asm _ _ _) _ => apply k_fr_mul_reduce_array16_asm
  | |- sim _ (ModelAvx.mul_reduce_array16_asm2 _ _ _) _ => apply k_fr_mul_reduce_array16_asm2
  | |- sim _ (ModelAvx.ntt_red_ct_rev2std_asm _ _ _) _ => apply k_fr_ntt_red_ct_rev2std_asm
  | |- sim _ (ModelAvx.mulntt_red_ct_rev2std_asm _ _ _) _ => apply k_fr_mulntt_red_ct_rev2std_asm
  | |- sim _ (ModelAvx.ntt_red_ct_std2rev_asm _ _ _) _ => apply k_fr_ntt_red_ct_std2rev_asm
  | |- sim _ (ModelAvx.mulntt_red_ct_std2rev_asm _ _ _) _ => apply k_fr_mulntt_red_ct_std2rev_asm
  | |- sim _ (ModelAvx.ntt_red_gs_rev2std_asm _ _ _) _ => apply k_fr_ntt_red_gs_rev2std_asm
  | |- sim _ (ModelAvx.nttmul_red_gs_rev2std_asm _ _ _) _ => apply k_fr_nttmul_red_gs_rev2std_asm
  | |- sim _ (ModelAvx.ntt_red_gs_std2rev_asm _ _ _) _ => apply k_fr_ntt_red_gs_std2rev_asm
  | |- sim _ (ModelAvx.nttmul_red_gs_std2rev_asm _ _ _) _ => apply k_fr_nttmul_red_gs_std2rev_asm
  | |- sim _ (ModelNtt.bitrev_shuffle _ _) _ => apply fr_bitrev_shuffle
  | |- sim _ (ModelNtt.scalar_mul_array _ _ _) _ => apply fr_scalar_mul_array
  | |- sim _ (ModelRed.normalize _ _) _ => apply fr_normalize
  | |- sim _ (ModelRed.normalize_inv3 _ _) _ => apply fr_normalize_inv3
  | |- sim _ (ModelRed.shift_array _ _) _ => apply fr_shift_array
  | |- sim _ (ModelRed.reduce_array _ _) _ => apply fr_reduce_array
  | |- sim _ (ModelRed.reduce_array_twice _ _) _ => apply fr_reduce_array_twice
  | |- sim _ (ModelRed.correct _ _) _ => apply fr_correct
  | |- sim _ (ModelRed.scalar_mul_reduce_array _ _ _) _ => apply fr_scalar_mul_reduce_array
  | |- sim _ (ModelNaive.scalar_mul_array_naive _ _ _ _) _ => apply fr_scalar_mul_array_naive
  | |- sim _ (ModelAvx.reduce_array_asm _ _) _ => apply fr_reduce_array_asm
  | |- sim _ (ModelAvx.reduce_array_asm2 _ _) _ => apply fr_reduce_array_asm2
  | |- sim _ (ModelAvx.reduce_array_twice_asm _ _) _ => apply fr_reduce_array_twice_asm
  | |- sim _ (ModelAvx.reduce_array_twice_asm2 _ _) _ => apply fr_reduce_array_twice_asm2
  | |- sim _ (ModelAvx.correct_asm _ _) _ => apply fr_correct_asm
  | |- sim _ (ModelAvx.shift_array_asm _ _) _ => apply fr_shift_array_asm
  | |- sim _ (ModelAvx.scalar_mul_reduce_array_asm _ _ _) _ => apply fr_scalar_mul_reduce_array_asm
  | |- sim _ (ModelProducts.maybe_shift _ _ _) _ => apply fr_maybe_shift
  | |- sim _ (ModelAvxProd.maybe_shift_asm _ _ _) _ => apply fr_maybe_shift_asm
  end.
Ltac fp_h :=
  lazymatch goal with
  | |- sim _ (ModelNtt.mul_array_h _ _ _ _ _) _ => eapply fr_mul_array_h
  | |- sim _ (ModelNaive.mul_array_naive_h _ _ _ _ _ _) _ => eapply fr_mul_array_naive_h
  | |- sim _ (ModelRed.mul_reduce_array_h _ _ _ _ _) _ => eapply fr_mul_reduce_array_h
  | |- sim _ (ModelAvx.mul_reduce_array_asm_h _ _ _ _ _) _ => eapply fr_mul_reduce_array_asm_h
  end; eassumption.
Ltac fp_ok :=
  repeat match goal with
  | |- sim _ (bind (ModelProducts.on _ _ _) _) _ =>
      eapply sim_bind; [eapply sim_on; [eassumption|cbv beta; fp_leaf]|]; intros ? ? ?
  | |- sim _ (bind _ _) _ => eapply sim_bind; [fp_h|]; intros ? ? ?
  | |- sim _ (Ok _) _ => apply sim_ret; assumption
  end.
Section S.
Variables (fs h h' : heap).
Hypothesis H : hfr fs h h'.
Lemma fp_ntt_product1 n T c a b : sim (hfr fs) (ModelProducts.ntt_product1 n T h c a b) (ModelProducts.ntt_product1 n T h' c a b).
Proof. unfold ModelProducts.ntt_product1. fp_ok. Qed.
Lemma fp_ntt_product2 n T c a b : sim (hfr fs) (ModelProducts.ntt_product2 n T h c a b) (ModelProducts.ntt_product2 n T h' c a b).
Proof. unfold ModelProducts.ntt_product2. fp_ok. Qed.
Lemma fp_ntt_product3 n T c a b : sim (hfr fs) (ModelProducts.ntt_product3 n T h c a b) (ModelProducts.ntt_product3 n T h' c a b).
Proof. unfold ModelProducts.ntt_product3. fp_ok. Qed.
Lemma fp_ntt_product4 n T c a b : sim (hfr fs) (ModelProducts.ntt_product4 n T h c a b) (ModelProducts.ntt_product4 n T h' c a b).
Proof. unfold ModelProducts.ntt_product4. fp_ok. Qed.
Lemma fp_ntt_product5 n T c a b : sim (hfr fs) (ModelProducts.ntt_product5 n T h c a b) (ModelProducts.ntt_product5 n T h' c a b).
Proof. unfold ModelProducts.ntt_product5. fp_ok. Qed.
Lemma fp_naive_product1 n T c a b : sim (hfr fs) (ModelProducts.naive_product1 n T h c a b) (ModelProducts.naive_product1 n T h' c a b).
Proof. unfold ModelProducts.naive_product1. fp_ok. Qed.
Lemma fp_naive_product2 n T c a b : sim (hfr fs) (ModelProducts.naive_product2 n T h c a b) (ModelProducts.naive_product2 n T h' c a b).
Proof. unfold ModelProducts.naive_product2. fp_ok. Qed.
Lemma fp_naive_product3 n T c a b : sim (hfr fs) (ModelProducts.naive_product3 n T h c a b) (ModelProducts.naive_product3 n T h' c a b).
Proof. unfold ModelProducts.naive_product3. fp_ok. Qed.
Lemma fp_naive_product4 n T c a b : sim (hfr fs) (ModelProducts.naive_product4 n T h c a b) (ModelProducts.naive_product4 n T h' c a b).
Proof. unfold ModelProducts.naive_product4. fp_ok. Qed.
Lemma fp_naive_product5 n T c a b : sim (hfr fs) (ModelProducts.naive_product5 n T h c a b) (ModelProducts.naive_product5 n T h' c a b).
Proof. unfold ModelProducts.naive_product5. fp_ok. Qed.
Lemma fp_red_product1 sh n T c a b : sim (hfr fs) (ModelProducts.red_product1 sh n T h c a b) (ModelProducts.red_product1 sh n T h' c a b).
Proof. unfold ModelProducts.red_product1. fp_ok. Qed.
Lemma fp_red_product2 sh n T c a b : sim (hfr fs) (ModelProducts.red_product2 sh n T h c a b) (ModelProducts.red_product2 sh n T h' c a b).
Proof. unfold ModelProducts.red_product2. fp_ok. Qed.
Lemma fp_red_product3 sh n T c a b : sim (hfr fs) (ModelProducts.red_product3 sh n T h c a b) (ModelProducts.red_product3 sh n T h' c a b).
Proof. unfold ModelProducts.red_product3. fp_ok. Qed.
Lemma fp_red_product4 sh n T c a b : sim (hfr fs) (ModelProducts.red_product4 sh n T h c a b) (ModelProducts.red_product4 sh n T h' c a b).
Proof. unfold ModelProducts.red_product4. fp_ok. Qed.
Lemma fp_red_product5 sh n T c a b : sim (hfr fs) (ModelProducts.red_product5 sh n T h c a b) (ModelProducts.red_product5 sh n T h' c a b).
Proof. unfold ModelProducts.red_product5. fp_ok. Qed.
Lemma fp_red_product1_asm sh n T c a b : sim (hfr fs) (ModelAvxProd.red_product1_asm sh n T h c a b) (ModelAvxProd.red_product1_asm sh n T h' c a b).
Proof. unfold ModelAvxProd.red_product1_asm. fp_ok. Qed.
Lemma fp_red_product2_asm sh n T c a b : sim (hfr fs) (ModelAvxProd.red_product2_asm sh n T h c a b) (ModelAvxProd.red_product2_asm sh n T h' c a b).
Proof. unfold ModelAvxProd.red_product2_asm. fp_ok. Qed.
Lemma fp_red_product3_asm sh n T c a b : sim (hfr fs) (ModelAvxProd.red_product3_asm sh n T h c a b) (ModelAvxProd.red_product3_asm sh n T h' c a b).
Proof. unfold ModelAvxProd.red_product3_asm. fp_ok. Qed.
Lemma fp_red_product4_asm sh n T c a b : sim (hfr fs) (ModelAvxProd.red_product4_asm sh n T h c a b) (ModelAvxProd.red_product4_asm sh n T h' c a b).
Proof. unfold ModelAvxProd.red_product4_asm. fp_ok. Qed.
Lemma fp_red_product5_asm sh n T c a b : sim (hfr fs) (ModelAvxProd.red_product5_asm sh n T h c a b) (ModelAvxProd.red_product5_asm sh n T h' c a b).
Proof. unfold ModelAvxProd.red_product5_asm. fp_ok. Qed.
Lemma fp_red1024_product1_asm n T c a b : sim (hfr fs) (ModelAvxProd.red1024_product1_asm n T h c a b) (ModelAvxProd.red1024_product1_asm n T h' c a b).
Proof. unfold ModelAvxProd.red1024_product1_asm. fp_ok. Qed.
End S.
