(** Whether an AVX2 transform stays inside its arrays does not depend on what they contain. *)

From Coq Require Import ZArith List Bool Lia.
From Verif Require Import CSem TraceElem FrameElem.
From Verif Require AvxSem ModelAvx.
Import ListNotations.
Open Scope Z_scope.

Definition shp (a a' : list Z) : Prop := length a = length a'.
Definition shl : FRel (list Z) := shp.
Definition sh_y : FRel AvxSem.ymm := any.

Lemma sh_rd a a' i : (length a <= length a')%nat -> sim any (rd a i) (rd a' i).
Proof.
  intros H. unfold rd. destruct (i <? 0); [apply sim_err|].
  destruct (nth_error a (Z.to_nat i)) as [v|] eqn:En; [|left; reflexivity].
  destruct (nth_error a' (Z.to_nat i)) as [v'|] eqn:En'.
  - apply sim_ret. exact I.
  - apply nth_error_None in En'. assert (Z.to_nat i < length a)%nat by (apply nth_error_Some; congruence). lia.
Qed.
Lemma upd_some (a : list Z) v : forall i, (i < length a)%nat -> exists l, upd a i v = Some l /\ length l = length a.
Proof.
  induction a as [|x a IH]; intros i H; cbn [length] in H; [lia|]. destruct i as [|i]; cbn [upd].
  - eexists. split; [reflexivity|reflexivity].
  - destruct (IH i ltac:(lia)) as (l & -> & El). eexists. split; [reflexivity|]. cbn [length]. lia.
Qed.
Lemma upd_lt (a : list Z) v : forall i l, upd a i v = Some l -> (i < length a)%nat.
Proof.
  induction a as [|x a IH]; intros i l H; [discriminate|]. destruct i as [|i]; cbn [upd length] in *; [lia|].
  destruct (upd a i v) eqn:E; [|discriminate]. specialize (IH _ _ E). lia.
Qed.
Lemma sh_wr a a' i v v' : shp a a' -> sim shp (wr a i v) (wr a' i v').
Proof.
  unfold shp. intros H. unfold wr. destruct (i <? 0); [apply sim_err|].
  destruct (upd a (Z.to_nat i) v) as [l|] eqn:El; [|left; reflexivity].
  pose proof (upd_lt _ _ _ _ El) as L. destruct (upd_some a v _ L) as (l1 & E1 & Hl1). rewrite El in E1. injection E1 as <-.
  destruct (upd_some a' v' (Z.to_nat i) ltac:(lia)) as (l' & -> & Hl'). apply sim_ret. lia.
Qed.
Lemma shp_le a a' : shp a a' -> (length a <= length a')%nat.
Proof. unfold shp. lia. Qed.

Local Hint Extern 0 (FRel (list Z)) => exact shl : typeclass_instances.
Local Hint Extern 0 (FRel AvxSem.ymm) => exact sh_y : typeclass_instances.

Ltac sh_side := first [eassumption | eapply shp_le; eassumption].
Ltac sh_prim :=
  repeat first [ eapply sim_bind; [apply sim_refl|]; intros ? ? <-
               | eapply sim_bind; [first [eapply sh_rd; sh_side | eapply sh_wr; eassumption]|]; cbv beta zeta; intros
               | eapply sh_rd; sh_side | eapply sh_wr; eassumption | apply sim_ret; first [exact I|assumption] ].
Lemma sh_ld8 a a' off : (length a <= length a')%nat -> sim any (AvxSem.ld8 a off) (AvxSem.ld8 a' off).
Proof. intros. unfold AvxSem.ld8. sh_prim. Qed.
Lemma sh_vpmovsxdq a a' off : (length a <= length a')%nat -> sim any (AvxSem.vpmovsxdq a off) (AvxSem.vpmovsxdq a' off).
Proof. intros. unfold AvxSem.vpmovsxdq. sh_prim. Qed.
Lemma sh_vpmovsxwd a a' off : (length a <= length a')%nat -> sim any (AvxSem.vpmovsxwd a off) (AvxSem.vpmovsxwd a' off).
Proof. intros. unfold AvxSem.vpmovsxwd. sh_prim. Qed.
Lemma sh_vpmovsxwq a a' off : (length a <= length a')%nat -> sim any (AvxSem.vpmovsxwq a off) (AvxSem.vpmovsxwq a' off).
Proof. intros. unfold AvxSem.vpmovsxwq. sh_prim. Qed.
Lemma sh_vpmovsxwq_x a a' off : (length a <= length a')%nat -> sim any (AvxSem.vpmovsxwq_x a off) (AvxSem.vpmovsxwq_x a' off).
Proof. intros. unfold AvxSem.vpmovsxwq_x. sh_prim. Qed.
Lemma sh_vpbroadcastw a a' off : (length a <= length a')%nat -> sim any (AvxSem.vpbroadcastw a off) (AvxSem.vpbroadcastw a' off).
Proof. intros. unfold AvxSem.vpbroadcastw. sh_prim. Qed.
Lemma sh_st8 a a' off x x' : shp a a' -> sim shp (AvxSem.st8 a off x) (AvxSem.st8 a' off x').
Proof. intros. unfold AvxSem.st8. sh_prim. Qed.
Lemma sh_st4 a a' off x x' : shp a a' -> sim shp (AvxSem.st4 a off x) (AvxSem.st4 a' off x').
Proof. intros. unfold AvxSem.st4. sh_prim. Qed.

Ltac sh_mem :=
  lazymatch goal with
  | |- sim _ (AvxSem.ld8 _ _) _ => eapply sh_ld8; sh_side
  | |- sim _ (AvxSem.vpmovsxdq _ _) _ => eapply sh_vpmovsxdq; sh_side
  | |- sim _ (AvxSem.vpmovsxwd _ _) _ => eapply sh_vpmovsxwd; sh_side
  | |- sim _ (AvxSem.vpmovsxwq _ _) _ => eapply sh_vpmovsxwq; sh_side
  | |- sim _ (AvxSem.vpmovsxwq_x _ _) _ => eapply sh_vpmovsxwq_x; sh_side
  | |- sim _ (AvxSem.vpbroadcastw _ _) _ => eapply sh_vpbroadcastw; sh_side
  | |- sim _ (AvxSem.st8 _ _ _) _ => eapply sh_st8; eassumption
  | |- sim _ (AvxSem.st4 _ _ _) _ => eapply sh_st4; eassumption
  end.

Section S.
Variables (p p' : list Z).
Hypothesis Hp : (length p <= length p')%nat.
Ltac sh_step := first
  [ eapply sim_bind; [sh_mem|] | sh_mem | fr_step ].
Ltac sh_ok := intros; match goal with |- sim _ ?m _ => let h := head_of m in cbv beta delta [h] end; repeat sh_step.
Lemma sh_ct_r2s_size16 a a' rdi rsi rdx r9 rax ymm4 ymm5 ymm6 ymm4' ymm5' ymm6' : shp a a' ->
  sim shp (ModelAvx.ct_r2s_size16 a p rdi rsi rdx r9 rax ymm4 ymm5 ymm6) (ModelAvx.ct_r2s_size16 a' p' rdi rsi rdx r9 rax ymm4' ymm5' ymm6').
Proof. sh_ok. Qed.
Lemma sh_ct_s2r_finish a a' n rdi rdx r8 ymm4 ymm4' : shp a a' ->
  sim shp (ModelAvx.ct_s2r_finish a p n rdi rdx r8 ymm4) (ModelAvx.ct_s2r_finish a' p' n rdi rdx r8 ymm4').
Proof. sh_ok. Qed.
Ltac sh_help :=
  lazymatch goal with
  | |- sim _ (ModelAvx.ct_r2s_size16 _ _ _ _ _ _ _ _ _ _) _ => eapply sh_ct_r2s_size16; eassumption
  | |- sim _ (ModelAvx.ct_s2r_finish _ _ _ _ _ _ _) _ => eapply sh_ct_s2r_finish; eassumption
  end.
Ltac sh_all := intros; match goal with |- sim _ ?m _ => let h := head_of m in cbv beta delta [h] end;
  repeat first [ sh_help | eapply sim_bind; [sh_help|] | sh_step ].
Lemma sh_ntt_red_ct_rev2std_asm a a' n : shp a a' -> sim shp (ModelAvx.ntt_red_ct_rev2std_asm a n p) (ModelAvx.ntt_red_ct_rev2std_asm a' n p').
Proof. sh_all. Qed.
Lemma sh_mulntt_red_ct_rev2std_asm a a' n : shp a a' -> sim shp (ModelAvx.mulntt_red_ct_rev2std_asm a n p) (ModelAvx.mulntt_red_ct_rev2std_asm a' n p').
Proof. sh_all. Qed.
Lemma sh_ntt_red_ct_std2rev_asm a a' n : shp a a' -> sim shp (ModelAvx.ntt_red_ct_std2rev_asm a n p) (ModelAvx.ntt_red_ct_std2rev_asm a' n p').
Proof. sh_all. Qed.
Lemma sh_mulntt_red_ct_std2rev_asm a a' n : shp a a' -> sim shp (ModelAvx.mulntt_red_ct_std2rev_asm a n p) (ModelAvx.mulntt_red_ct_std2rev_asm a' n p').
Proof. sh_all. Qed.
Lemma sh_ntt_red_gs_rev2std_asm a a' n : shp a a' -> sim shp (ModelAvx.ntt_red_gs_rev2std_asm a n p) (ModelAvx.ntt_red_gs_rev2std_asm a' n p').
Proof. sh_all. Qed.
Lemma sh_nttmul_red_gs_rev2std_asm a a' n : shp a a' -> sim shp (ModelAvx.nttmul_red_gs_rev2std_asm a n p) (ModelAvx.nttmul_red_gs_rev2std_asm a' n p').
Proof. sh_all. Qed.
Lemma sh_ntt_red_gs_std2rev_asm a a' n : shp a a' -> sim shp (ModelAvx.ntt_red_gs_std2rev_asm a n p) (ModelAvx.ntt_red_gs_std2rev_asm a' n p').
Proof. sh_all. Qed.
Lemma sh_nttmul_red_gs_std2rev_asm a a' n : shp a a' -> sim shp (ModelAvx.nttmul_red_gs_std2rev_asm a n p) (ModelAvx.nttmul_red_gs_std2rev_asm a' n p').
Proof. sh_all. Qed.
Lemma sh_mul_reduce_array16_asm a a' n : shp a a' -> sim shp (ModelAvx.mul_reduce_array16_asm a n p) (ModelAvx.mul_reduce_array16_asm a' n p').
Proof. sh_all. Qed.
Lemma sh_mul_reduce_array16_asm2 a a' n : shp a a' -> sim shp (ModelAvx.mul_reduce_array16_asm2 a n p) (ModelAvx.mul_reduce_array16_asm2 a' n p').
Proof. sh_all. Qed.
Lemma sh_reduce_array_asm a a' n : shp a a' -> sim shp (ModelAvx.reduce_array_asm a n) (ModelAvx.reduce_array_asm a' n).
Proof. sh_all. Qed.
Lemma sh_reduce_array_asm2 a a' n : shp a a' -> sim shp (ModelAvx.reduce_array_asm2 a n) (ModelAvx.reduce_array_asm2 a' n).
Proof. sh_all. Qed.
Lemma sh_reduce_array_twice_asm a a' n : shp a a' -> sim shp (ModelAvx.reduce_array_twice_asm a n) (ModelAvx.reduce_array_twice_asm a' n).
Proof. sh_all. Qed.
Lemma sh_reduce_array_twice_asm2 a a' n : shp a a' -> sim shp (ModelAvx.reduce_array_twice_asm2 a n) (ModelAvx.reduce_array_twice_asm2 a' n).
Proof. sh_all. Qed.
Lemma sh_correct_asm a a' n : shp a a' -> sim shp (ModelAvx.correct_asm a n) (ModelAvx.correct_asm a' n).
Proof. sh_all. Qed.
Lemma sh_shift_array_asm a a' n : shp a a' -> sim shp (ModelAvx.shift_array_asm a n) (ModelAvx.shift_array_asm a' n).
Proof. sh_all. Qed.
Lemma sh_scalar_mul_reduce_array_asm a a' n c c' : shp a a' -> sim shp (ModelAvx.scalar_mul_reduce_array_asm a n c) (ModelAvx.scalar_mul_reduce_array_asm a' n c').
Proof. sh_all. Qed.
End S.
