(** The AVX2 routines on longer arrays. *)

From Coq Require Import ZArith List Bool Lia.
From Verif Require Import CSem TraceElem FrameElem.
From Verif Require AvxSem ModelAvx.
Import ListNotations.
Open Scope Z_scope.

Definition fr_y : FRel AvxSem.ymm := eq.
#[export] Hint Extern 0 (FRel AvxSem.ymm) => exact fr_y : typeclass_instances.

Lemma fr_ld8 s a off : sim eq (AvxSem.ld8 a off) (AvxSem.ld8 (a ++ s) off).
Proof. unfold AvxSem.ld8. repeat fr_step. Qed.
#[export] Hint Resolve fr_ld8 : frame.
Lemma fr_st8 s a off x : sim (fr s) (AvxSem.st8 a off x) (AvxSem.st8 (a ++ s) off x).
Proof. unfold AvxSem.st8. repeat fr_step. Qed.
#[export] Hint Resolve fr_st8 : frame.
Lemma fr_st4 s a off x : sim (fr s) (AvxSem.st4 a off x) (AvxSem.st4 (a ++ s) off x).
Proof. unfold AvxSem.st4. repeat fr_step. Qed.
#[export] Hint Resolve fr_st4 : frame.
Lemma fr_vpmovsxdq s a off : sim eq (AvxSem.vpmovsxdq a off) (AvxSem.vpmovsxdq (a ++ s) off).
Proof. unfold AvxSem.vpmovsxdq. repeat fr_step. Qed.
#[export] Hint Resolve fr_vpmovsxdq : frame.
Lemma fr_vpmovsxwd s p off : sim eq (AvxSem.vpmovsxwd p off) (AvxSem.vpmovsxwd (p ++ s) off).
Proof. unfold AvxSem.vpmovsxwd. repeat fr_step. Qed.
#[export] Hint Resolve fr_vpmovsxwd : frame.
Lemma fr_vpmovsxwq s p off : sim eq (AvxSem.vpmovsxwq p off) (AvxSem.vpmovsxwq (p ++ s) off).
Proof. unfold AvxSem.vpmovsxwq. repeat fr_step. Qed.
#[export] Hint Resolve fr_vpmovsxwq : frame.
Lemma fr_vpmovsxwq_x s p off : sim eq (AvxSem.vpmovsxwq_x p off) (AvxSem.vpmovsxwq_x (p ++ s) off).
Proof. unfold AvxSem.vpmovsxwq_x. repeat fr_step. Qed.
#[export] Hint Resolve fr_vpmovsxwq_x : frame.
Lemma fr_vpbroadcastw s p off : sim eq (AvxSem.vpbroadcastw p off) (AvxSem.vpbroadcastw (p ++ s) off).
Proof. unfold AvxSem.vpbroadcastw. repeat fr_step. Qed.
#[export] Hint Resolve fr_vpbroadcastw : frame.
Lemma fr_ld8_h fs h h' x off : hfr fs h h' -> sim eq (AvxSem.ld8 (h x) off) (AvxSem.ld8 (h' x) off).
Proof. intros H. rewrite H. apply fr_ld8. Qed.
Lemma fr_st8_h fs h h' x off y : hfr fs h h' -> sim (fr (fs x)) (AvxSem.st8 (h x) off y) (AvxSem.st8 (h' x) off y).
Proof. intros H. rewrite H. apply fr_st8. Qed.

Section S.
Variables (s q : list Z) (fs : heap).
Local Hint Extern 0 (FRel (list Z)) => exact (fr_l s) : typeclass_instances.
Local Hint Extern 0 (FRel heap) => exact (fr_h fs) : typeclass_instances.
Local Hint Extern 0 (FRel (Z -> list Z)) => exact (fr_h fs) : typeclass_instances.
Lemma fr_reduce_array_asm a n : sim (fr s) (ModelAvx.reduce_array_asm a n) (ModelAvx.reduce_array_asm (a ++ s) n).
Proof. fr_ok. Qed.
Lemma fr_reduce_array_asm2 a n : sim (fr s) (ModelAvx.reduce_array_asm2 a n) (ModelAvx.reduce_array_asm2 (a ++ s) n).
Proof. fr_ok. Qed.
Lemma fr_reduce_array_twice_asm a n : sim (fr s) (ModelAvx.reduce_array_twice_asm a n) (ModelAvx.reduce_array_twice_asm (a ++ s) n).
Proof. fr_ok. Qed.
Lemma fr_reduce_array_twice_asm2 a n : sim (fr s) (ModelAvx.reduce_array_twice_asm2 a n) (ModelAvx.reduce_array_twice_asm2 (a ++ s) n).
Proof. fr_ok. Qed.
Lemma fr_correct_asm a n : sim (fr s) (ModelAvx.correct_asm a n) (ModelAvx.correct_asm (a ++ s) n).
Proof. fr_ok. Qed.
Lemma fr_shift_array_asm a n : sim (fr s) (ModelAvx.shift_array_asm a n) (ModelAvx.shift_array_asm (a ++ s) n).
Proof. fr_ok. Qed.
Lemma fr_mul_reduce_array16_asm a n p : sim (fr s) (ModelAvx.mul_reduce_array16_asm a n p) (ModelAvx.mul_reduce_array16_asm (a ++ s) n (p ++ q)).
Proof. fr_ok. Qed.
Lemma fr_mul_reduce_array16_asm2 a n p : sim (fr s) (ModelAvx.mul_reduce_array16_asm2 a n p) (ModelAvx.mul_reduce_array16_asm2 (a ++ s) n (p ++ q)).
Proof. fr_ok. Qed.
Lemma fr_mul_reduce_array_asm_h h ra n rb rc h' : hfr fs h h' -> sim (hfr fs) (ModelAvx.mul_reduce_array_asm_h h ra n rb rc) (ModelAvx.mul_reduce_array_asm_h h' ra n rb rc).
Proof.
  intros. unfold ModelAvx.mul_reduce_array_asm_h.
  repeat first [ eapply sim_bind; [first [eapply fr_ld8_h | eapply fr_st8_h]; eassumption|] | fr_step ].
Qed.
Lemma fr_scalar_mul_reduce_array_asm a n c : sim (fr s) (ModelAvx.scalar_mul_reduce_array_asm a n c) (ModelAvx.scalar_mul_reduce_array_asm (a ++ s) n c).
Proof. fr_ok. Qed.
Lemma fr_ct_r2s_size16 a p rdi rsi rdx r9 rax ymm4 ymm5 ymm6 : sim (fr s) (ModelAvx.ct_r2s_size16 a p rdi rsi rdx r9 rax ymm4 ymm5 ymm6) (ModelAvx.ct_r2s_size16 (a ++ s) (p ++ q) rdi rsi rdx r9 rax ymm4 ymm5 ymm6).
Proof. fr_ok. Qed.
Local Hint Resolve fr_ct_r2s_size16 : frame.
Lemma fr_ntt_red_ct_rev2std_asm a n p : sim (fr s) (ModelAvx.ntt_red_ct_rev2std_asm a n p) (ModelAvx.ntt_red_ct_rev2std_asm (a ++ s) n (p ++ q)).
Proof. fr_ok. Qed.
Lemma fr_mulntt_red_ct_rev2std_asm a n p : sim (fr s) (ModelAvx.mulntt_red_ct_rev2std_asm a n p) (ModelAvx.mulntt_red_ct_rev2std_asm (a ++ s) n (p ++ q)).
Proof. fr_ok. Qed.
Lemma fr_ct_s2r_finish a p n rdi rdx r8 ymm4 : sim (fr s) (ModelAvx.ct_s2r_finish a p n rdi rdx r8 ymm4) (ModelAvx.ct_s2r_finish (a ++ s) (p ++ q) n rdi rdx r8 ymm4).
Proof. fr_ok. Qed.
Local Hint Resolve fr_ct_s2r_finish : frame.
Lemma fr_ntt_red_ct_std2rev_asm a n p : sim (fr s) (ModelAvx.ntt_red_ct_std2rev_asm a n p) (ModelAvx.ntt_red_ct_std2rev_asm (a ++ s) n (p ++ q)).
Proof. fr_ok. Qed.
Lemma fr_mulntt_red_ct_std2rev_asm a n p : sim (fr s) (ModelAvx.mulntt_red_ct_std2rev_asm a n p) (ModelAvx.mulntt_red_ct_std2rev_asm (a ++ s) n (p ++ q)).
Proof. fr_ok. Qed.
Lemma fr_ntt_red_gs_rev2std_asm a n p : sim (fr s) (ModelAvx.ntt_red_gs_rev2std_asm a n p) (ModelAvx.ntt_red_gs_rev2std_asm (a ++ s) n (p ++ q)).
Proof. fr_ok. Qed.
Lemma fr_nttmul_red_gs_rev2std_asm a n p : sim (fr s) (ModelAvx.nttmul_red_gs_rev2std_asm a n p) (ModelAvx.nttmul_red_gs_rev2std_asm (a ++ s) n (p ++ q)).
Proof. fr_ok. Qed.
Lemma fr_ntt_red_gs_std2rev_asm a n p : sim (fr s) (ModelAvx.ntt_red_gs_std2rev_asm a n p) (ModelAvx.ntt_red_gs_std2rev_asm (a ++ s) n (p ++ q)).
Proof. fr_ok. Qed.
Lemma fr_nttmul_red_gs_std2rev_asm a n p : sim (fr s) (ModelAvx.nttmul_red_gs_std2rev_asm a n p) (ModelAvx.nttmul_red_gs_std2rev_asm (a ++ s) n (p ++ q)).
Proof. fr_ok. Qed.
End S.
