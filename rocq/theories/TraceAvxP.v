(** The traced versions of the AVX2 routines: erasure and equality of traces. *)

From Coq Require Import ZArith List Bool Lia.
From Verif Require Import CSem TraceElem.
From Verif Require AvxSem ModelAvx TraceSem TraceAvxSem TraceAvx.
Import ListNotations.
Open Scope Z_scope.

(** the element index is computed from the offset alone *)
Ltac tr_idx :=
  match goal with |- ob _ ?m _ => let h := head_of m in cbv beta delta [h] end;
  apply (ob_bind eq); [apply ob_lift_eq | intros ? ? ->; repeat ob_step].

Lemma er_ld8 q a off : er (TraceAvxSem.ld8 q a off) (AvxSem.ld8 a off).
Proof. tr_er. Qed.
Lemma ob_ld8 q a a' off : ob any (TraceAvxSem.ld8 q a off) (TraceAvxSem.ld8 q a' off).
Proof. tr_idx. Qed.
#[export] Hint Resolve er_ld8 ob_ld8 : trace.

Lemma er_st8 q a off x : er (TraceAvxSem.st8 q a off x) (AvxSem.st8 a off x).
Proof. tr_er. Qed.
Lemma ob_st8 q a a' off x x' : ob any (TraceAvxSem.st8 q a off x) (TraceAvxSem.st8 q a' off x').
Proof. tr_idx. Qed.
#[export] Hint Resolve er_st8 ob_st8 : trace.

Lemma er_st4 q a off x : er (TraceAvxSem.st4 q a off x) (AvxSem.st4 a off x).
Proof. tr_er. Qed.
Lemma ob_st4 q a a' off x x' : ob any (TraceAvxSem.st4 q a off x) (TraceAvxSem.st4 q a' off x').
Proof. tr_idx. Qed.
#[export] Hint Resolve er_st4 ob_st4 : trace.

Lemma er_vpmovsxdq q a off : er (TraceAvxSem.vpmovsxdq q a off) (AvxSem.vpmovsxdq a off).
Proof. tr_er. Qed.
Lemma ob_vpmovsxdq q a a' off : ob any (TraceAvxSem.vpmovsxdq q a off) (TraceAvxSem.vpmovsxdq q a' off).
Proof. tr_idx. Qed.
#[export] Hint Resolve er_vpmovsxdq ob_vpmovsxdq : trace.

Lemma er_vpmovsxwd p off : er (TraceAvxSem.vpmovsxwd p off) (AvxSem.vpmovsxwd p off).
Proof. tr_er. Qed.
Lemma ob_vpmovsxwd p p' off : ob any (TraceAvxSem.vpmovsxwd p off) (TraceAvxSem.vpmovsxwd p' off).
Proof. tr_idx. Qed.
#[export] Hint Resolve er_vpmovsxwd ob_vpmovsxwd : trace.

Lemma er_vpmovsxwq p off : er (TraceAvxSem.vpmovsxwq p off) (AvxSem.vpmovsxwq p off).
Proof. tr_er. Qed.
Lemma ob_vpmovsxwq p p' off : ob any (TraceAvxSem.vpmovsxwq p off) (TraceAvxSem.vpmovsxwq p' off).
Proof. tr_idx. Qed.
#[export] Hint Resolve er_vpmovsxwq ob_vpmovsxwq : trace.

Lemma er_vpmovsxwq_x p off : er (TraceAvxSem.vpmovsxwq_x p off) (AvxSem.vpmovsxwq_x p off).
Proof. tr_er. Qed.
Lemma ob_vpmovsxwq_x p p' off : ob any (TraceAvxSem.vpmovsxwq_x p off) (TraceAvxSem.vpmovsxwq_x p' off).
Proof. tr_idx. Qed.
#[export] Hint Resolve er_vpmovsxwq_x ob_vpmovsxwq_x : trace.

Lemma er_vpbroadcastw p off : er (TraceAvxSem.vpbroadcastw p off) (AvxSem.vpbroadcastw p off).
Proof. tr_er. Qed.
Lemma ob_vpbroadcastw p p' off : ob any (TraceAvxSem.vpbroadcastw p off) (TraceAvxSem.vpbroadcastw p' off).
Proof. tr_idx. Qed.
#[export] Hint Resolve er_vpbroadcastw ob_vpbroadcastw : trace.

Lemma er_reduce_array_asm a n : er (TraceAvx.reduce_array_asm a n) (ModelAvx.reduce_array_asm a n).
Proof. tr_er. Qed.
Lemma ob_reduce_array_asm a n a' : ob any (TraceAvx.reduce_array_asm a n) (TraceAvx.reduce_array_asm a' n).
Proof. tr_ob. Qed.
#[export] Hint Resolve er_reduce_array_asm ob_reduce_array_asm : trace.

Lemma er_reduce_array_asm2 a n : er (TraceAvx.reduce_array_asm2 a n) (ModelAvx.reduce_array_asm2 a n).
Proof. tr_er. Qed.
Lemma ob_reduce_array_asm2 a n a' : ob any (TraceAvx.reduce_array_asm2 a n) (TraceAvx.reduce_array_asm2 a' n).
Proof. tr_ob. Qed.
#[export] Hint Resolve er_reduce_array_asm2 ob_reduce_array_asm2 : trace.

Lemma er_reduce_array_twice_asm a n : er (TraceAvx.reduce_array_twice_asm a n) (ModelAvx.reduce_array_twice_asm a n).
Proof. tr_er. Qed.
Lemma ob_reduce_array_twice_asm a n a' : ob any (TraceAvx.reduce_array_twice_asm a n) (TraceAvx.reduce_array_twice_asm a' n).
Proof. tr_ob. Qed.
#[export] Hint Resolve er_reduce_array_twice_asm ob_reduce_array_twice_asm : trace.

Lemma er_reduce_array_twice_asm2 a n : er (TraceAvx.reduce_array_twice_asm2 a n) (ModelAvx.reduce_array_twice_asm2 a n).
Proof. tr_er. Qed.
Lemma ob_reduce_array_twice_asm2 a n a' : ob any (TraceAvx.reduce_array_twice_asm2 a n) (TraceAvx.reduce_array_twice_asm2 a' n).
Proof. tr_ob. Qed.
#[export] Hint Resolve er_reduce_array_twice_asm2 ob_reduce_array_twice_asm2 : trace.

Lemma er_correct_asm a n : er (TraceAvx.correct_asm a n) (ModelAvx.correct_asm a n).
Proof. tr_er. Qed.
Lemma ob_correct_asm a n a' : ob any (TraceAvx.correct_asm a n) (TraceAvx.correct_asm a' n).
Proof. tr_ob. Qed.
#[export] Hint Resolve er_correct_asm ob_correct_asm : trace.

Lemma er_shift_array_asm a n : er (TraceAvx.shift_array_asm a n) (ModelAvx.shift_array_asm a n).
Proof. tr_er. Qed.
Lemma ob_shift_array_asm a n a' : ob any (TraceAvx.shift_array_asm a n) (TraceAvx.shift_array_asm a' n).
Proof. tr_ob. Qed.
#[export] Hint Resolve er_shift_array_asm ob_shift_array_asm : trace.

Lemma er_mul_reduce_array16_asm a n p : er (TraceAvx.mul_reduce_array16_asm a n p) (ModelAvx.mul_reduce_array16_asm a n p).
Proof. tr_er. Qed.
Lemma ob_mul_reduce_array16_asm a n p a' p' : ob any (TraceAvx.mul_reduce_array16_asm a n p) (TraceAvx.mul_reduce_array16_asm a' n p').
Proof. tr_ob. Qed.
#[export] Hint Resolve er_mul_reduce_array16_asm ob_mul_reduce_array16_asm : trace.

Lemma er_mul_reduce_array16_asm2 a n p : er (TraceAvx.mul_reduce_array16_asm2 a n p) (ModelAvx.mul_reduce_array16_asm2 a n p).
Proof. tr_er. Qed.
Lemma ob_mul_reduce_array16_asm2 a n p a' p' : ob any (TraceAvx.mul_reduce_array16_asm2 a n p) (TraceAvx.mul_reduce_array16_asm2 a' n p').
Proof. tr_ob. Qed.
#[export] Hint Resolve er_mul_reduce_array16_asm2 ob_mul_reduce_array16_asm2 : trace.

Lemma er_mul_reduce_array_asm_h h ra n rb rc : er (TraceAvx.mul_reduce_array_asm_h h ra n rb rc) (ModelAvx.mul_reduce_array_asm_h h ra n rb rc).
Proof. tr_er. Qed.
Lemma ob_mul_reduce_array_asm_h h ra n rb rc h' : ob any (TraceAvx.mul_reduce_array_asm_h h ra n rb rc) (TraceAvx.mul_reduce_array_asm_h h' ra n rb rc).
Proof. tr_ob. Qed.
#[export] Hint Resolve er_mul_reduce_array_asm_h ob_mul_reduce_array_asm_h : trace.

Lemma er_scalar_mul_reduce_array_asm a n c : er (TraceAvx.scalar_mul_reduce_array_asm a n c) (ModelAvx.scalar_mul_reduce_array_asm a n c).
Proof. tr_er. Qed.
Lemma ob_scalar_mul_reduce_array_asm a n c a' c' : ob any (TraceAvx.scalar_mul_reduce_array_asm a n c) (TraceAvx.scalar_mul_reduce_array_asm a' n c').
Proof. tr_ob. Qed.
#[export] Hint Resolve er_scalar_mul_reduce_array_asm ob_scalar_mul_reduce_array_asm : trace.

Lemma er_ct_r2s_size16 a p rdi rsi rdx r9 rax ymm4 ymm5 ymm6 : er (TraceAvx.ct_r2s_size16 a p rdi rsi rdx r9 rax ymm4 ymm5 ymm6) (ModelAvx.ct_r2s_size16 a p rdi rsi rdx r9 rax ymm4 ymm5 ymm6).
Proof. tr_er. Qed.
Lemma ob_ct_r2s_size16 a p rdi rsi rdx r9 rax ymm4 ymm5 ymm6 a' p' ymm4' ymm5' ymm6' : ob any (TraceAvx.ct_r2s_size16 a p rdi rsi rdx r9 rax ymm4 ymm5 ymm6) (TraceAvx.ct_r2s_size16 a' p' rdi rsi rdx r9 rax ymm4' ymm5' ymm6').
Proof. tr_ob. Qed.
#[export] Hint Resolve er_ct_r2s_size16 ob_ct_r2s_size16 : trace.

Lemma er_ntt_red_ct_rev2std_asm a n p : er (TraceAvx.ntt_red_ct_rev2std_asm a n p) (ModelAvx.ntt_red_ct_rev2std_asm a n p).
Proof. tr_er. Qed.
Lemma ob_ntt_red_ct_rev2std_asm a n p a' p' : ob any (TraceAvx.ntt_red_ct_rev2std_asm a n p) (TraceAvx.ntt_red_ct_rev2std_asm a' n p').
Proof. tr_ob. Qed.
#[export] Hint Resolve er_ntt_red_ct_rev2std_asm ob_ntt_red_ct_rev2std_asm : trace.

Lemma er_mulntt_red_ct_rev2std_asm a n p : er (TraceAvx.mulntt_red_ct_rev2std_asm a n p) (ModelAvx.mulntt_red_ct_rev2std_asm a n p).
Proof. tr_er. Qed.
Lemma ob_mulntt_red_ct_rev2std_asm a n p a' p' : ob any (TraceAvx.mulntt_red_ct_rev2std_asm a n p) (TraceAvx.mulntt_red_ct_rev2std_asm a' n p').
Proof. tr_ob. Qed.
#[export] Hint Resolve er_mulntt_red_ct_rev2std_asm ob_mulntt_red_ct_rev2std_asm : trace.

Lemma er_ct_s2r_finish a p n rdi rdx r8 ymm4 : er (TraceAvx.ct_s2r_finish a p n rdi rdx r8 ymm4) (ModelAvx.ct_s2r_finish a p n rdi rdx r8 ymm4).
Proof. tr_er. Qed.
Lemma ob_ct_s2r_finish a p n rdi rdx r8 ymm4 a' p' ymm4' : ob any (TraceAvx.ct_s2r_finish a p n rdi rdx r8 ymm4) (TraceAvx.ct_s2r_finish a' p' n rdi rdx r8 ymm4').
Proof. tr_ob. Qed.
#[export] Hint Resolve er_ct_s2r_finish ob_ct_s2r_finish : trace.

Lemma er_ntt_red_ct_std2rev_asm a n p : er (TraceAvx.ntt_red_ct_std2rev_asm a n p) (ModelAvx.ntt_red_ct_std2rev_asm a n p).
Proof. tr_er. Qed.
Lemma ob_ntt_red_ct_std2rev_asm a n p a' p' : ob any (TraceAvx.ntt_red_ct_std2rev_asm a n p) (TraceAvx.ntt_red_ct_std2rev_asm a' n p').
Proof. tr_ob. Qed.
#[export] Hint Resolve er_ntt_red_ct_std2rev_asm ob_ntt_red_ct_std2rev_asm : trace.

Lemma er_mulntt_red_ct_std2rev_asm a n p : er (TraceAvx.mulntt_red_ct_std2rev_asm a n p) (ModelAvx.mulntt_red_ct_std2rev_asm a n p).
Proof. tr_er. Qed.
Lemma ob_mulntt_red_ct_std2rev_asm a n p a' p' : ob any (TraceAvx.mulntt_red_ct_std2rev_asm a n p) (TraceAvx.mulntt_red_ct_std2rev_asm a' n p').
Proof. tr_ob. Qed.
#[export] Hint Resolve er_mulntt_red_ct_std2rev_asm ob_mulntt_red_ct_std2rev_asm : trace.

Lemma er_ntt_red_gs_rev2std_asm a n p : er (TraceAvx.ntt_red_gs_rev2std_asm a n p) (ModelAvx.ntt_red_gs_rev2std_asm a n p).
Proof. tr_er. Qed.
Lemma ob_ntt_red_gs_rev2std_asm a n p a' p' : ob any (TraceAvx.ntt_red_gs_rev2std_asm a n p) (TraceAvx.ntt_red_gs_rev2std_asm a' n p').
Proof. tr_ob. Qed.
#[export] Hint Resolve er_ntt_red_gs_rev2std_asm ob_ntt_red_gs_rev2std_asm : trace.

Lemma er_nttmul_red_gs_rev2std_asm a n p : er (TraceAvx.nttmul_red_gs_rev2std_asm a n p) (ModelAvx.nttmul_red_gs_rev2std_asm a n p).
Proof. tr_er. Qed.
Lemma ob_nttmul_red_gs_rev2std_asm a n p a' p' : ob any (TraceAvx.nttmul_red_gs_rev2std_asm a n p) (TraceAvx.nttmul_red_gs_rev2std_asm a' n p').
Proof. tr_ob. Qed.
#[export] Hint Resolve er_nttmul_red_gs_rev2std_asm ob_nttmul_red_gs_rev2std_asm : trace.

Lemma er_ntt_red_gs_std2rev_asm a n p : er (TraceAvx.ntt_red_gs_std2rev_asm a n p) (ModelAvx.ntt_red_gs_std2rev_asm a n p).
Proof. tr_er. Qed.
Lemma ob_ntt_red_gs_std2rev_asm a n p a' p' : ob any (TraceAvx.ntt_red_gs_std2rev_asm a n p) (TraceAvx.ntt_red_gs_std2rev_asm a' n p').
Proof. tr_ob. Qed.
#[export] Hint Resolve er_ntt_red_gs_std2rev_asm ob_ntt_red_gs_std2rev_asm : trace.

Lemma er_nttmul_red_gs_std2rev_asm a n p : er (TraceAvx.nttmul_red_gs_std2rev_asm a n p) (ModelAvx.nttmul_red_gs_std2rev_asm a n p).
Proof. tr_er. Qed.
Lemma ob_nttmul_red_gs_std2rev_asm a n p a' p' : ob any (TraceAvx.nttmul_red_gs_std2rev_asm a n p) (TraceAvx.nttmul_red_gs_std2rev_asm a' n p').
Proof. tr_ob. Qed.
#[export] Hint Resolve er_nttmul_red_gs_std2rev_asm ob_nttmul_red_gs_std2rev_asm : trace.

