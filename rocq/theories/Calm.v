(** The transforms do not call exit. *)

From Coq Require Import ZArith List Bool Lia.
From Verif Require Import CSem AvxSem ModelRed ModelAvx.
Import ListNotations.
Open Scope Z_scope.

Definition calm {A} (m : res A) : Prop := m <> Err Exited.

Lemma calm_ok {A} (x : A) : calm (Ok x).
Proof. discriminate. Qed.
Lemma calm_bind {A B} (m : res A) (f : A -> res B) : calm m -> (forall x, calm (f x)) -> calm (do x <- m; f x).
Proof. destruct m as [x|e]; cbn; [intros _ H; apply H|]. unfold calm. intros H _ E. apply H. congruence. Qed.
Lemma calm_cfor {S} cond next (body : Z -> S -> res S) : (forall i x, calm (body i x)) ->
  forall f i st, calm (cfor f i cond next body st).
Proof.
  intros H. induction f as [|f IH]; intros i st; [discriminate|]. cbn [cfor]. destruct (cond i); [|apply calm_ok].
  apply calm_bind; [apply H|intros x; apply IH].
Qed.
Lemma calm_cwhile {S} (cond : S -> bool) body : (forall x, calm (body x)) -> forall f st, calm (cwhile f cond body st).
Proof.
  intros H. induction f as [|f IH]; intros st; [discriminate|]. cbn [cwhile]. destruct (cond st); [|apply calm_ok].
  apply calm_bind; [apply H|intros x; apply IH].
Qed.
Lemma calm_cdowhile {S} (cond : S -> bool) body f st : (forall x, calm (body x)) -> calm (cdowhile f body cond st).
Proof. intros H. unfold cdowhile. apply calm_bind; [apply H|]. intros x. apply calm_cwhile, H. Qed.

Ltac calm_case := repeat match goal with
  | |- calm (match ?x with _ => _ end) => destruct x
  | |- calm (if ?x then _ else _) => destruct x
  end; try discriminate.
Lemma calm_rd a i : calm (rd a i).
Proof. unfold rd. calm_case. Qed.
Lemma calm_wr a i v : calm (wr a i v).
Proof. unfold wr. calm_case. Qed.
Lemma calm_i32 z : calm (i32 z).
Proof. unfold i32. calm_case. Qed.
Lemma calm_i64 z : calm (i64 z).
Proof. unfold i64. calm_case. Qed.
Lemma calm_assert b : calm (cassert b).
Proof. unfold cassert. calm_case. Qed.
Lemma calm_eidx s o : calm (eidx s o).
Proof. unfold eidx. calm_case. Qed.
Ltac calm_step :=
  match goal with
  | |- calm (let x := ?v in @?b x) =>
      let H := fresh in assert (H : forall x, calm (b x)); [intro; cbv beta|exact (H v)]
  | |- calm (Ok _) => apply calm_ok
  | |- calm (bind _ _) => apply calm_bind; [|intros]
  | |- calm (cfor _ _ _ _ _ _) => apply calm_cfor; intros
  | |- calm (cwhile _ _ _ _) => apply calm_cwhile; intros
  | |- calm (cdowhile _ _ _ _) => apply calm_cdowhile; intros
  | |- calm (rd _ _) => apply calm_rd
  | |- calm (wr _ _ _) => apply calm_wr
  | |- calm (i32 _) => apply calm_i32
  | |- calm (i64 _) => apply calm_i64
  | |- calm (add32 _ _) => apply calm_i32
  | |- calm (sub32 _ _) => apply calm_i32
  | |- calm (mul32 _ _) => apply calm_i32
  | |- calm (mul64 _ _) => apply calm_i64
  | |- calm (cassert _) => apply calm_assert
  | |- calm (eidx _ _) => apply calm_eidx
  | |- calm (match ?x with _ => _ end) => destruct x
  | |- calm (Err _) => discriminate
  end.
Lemma calm_ld8 a o : calm (ld8 a o).
Proof. unfold ld8. repeat calm_step. Qed.
Lemma calm_st8 a o x : calm (st8 a o x).
Proof. unfold st8. repeat calm_step. Qed.
Lemma calm_vpmovsxwd a o : calm (vpmovsxwd a o).
Proof. unfold vpmovsxwd. repeat calm_step. Qed.
Lemma calm_vpmovsxwq a o : calm (vpmovsxwq a o).
Proof. unfold vpmovsxwq. repeat calm_step. Qed.
Lemma calm_vpmovsxwq_x a o : calm (vpmovsxwq_x a o).
Proof. unfold vpmovsxwq_x. repeat calm_step. Qed.
Lemma calm_vpbroadcastw a o : calm (vpbroadcastw a o).
Proof. unfold vpbroadcastw. repeat calm_step. Qed.

Lemma calm_mul_red x y : calm (mul_red x y).
Proof. unfold mul_red. repeat calm_step. Qed.
Lemma calm_bfly0 s t a : calm (bfly0_red s t a).
Proof. unfold bfly0_red. repeat calm_step. Qed.
Lemma calm_ct w s t a : calm (ct_bfly_red w s t a).
Proof. unfold ct_bfly_red. repeat (calm_step || apply calm_mul_red). Qed.
Lemma calm_gs w s t a : calm (gs_bfly_red w s t a).
Proof. unfold gs_bfly_red. repeat (calm_step || apply calm_mul_red). Qed.

Ltac calm_walk := cbv beta;
  repeat (calm_step || apply calm_ld8 || apply calm_st8 || apply calm_vpmovsxwd || apply calm_vpmovsxwq || apply calm_vpmovsxwq_x || apply calm_vpbroadcastw
    || apply calm_bfly0 || apply calm_ct || apply calm_gs).

Lemma calm_ct_r2s_size16 a p rdi rsi rdx r9 rax x y z : calm (ct_r2s_size16 a p rdi rsi rdx r9 rax x y z).
Proof. cbv delta [ct_r2s_size16]. calm_walk. Qed.
Lemma calm_ct_s2r_finish a p n rdi rdx r8 x : calm (ct_s2r_finish a p n rdi rdx r8 x).
Proof. cbv delta [ct_s2r_finish]. calm_walk. Qed.
Lemma calm_ntt_red_ct_rev2std a n p : calm (ntt_red_ct_rev2std a n p).
Proof. cbv delta [ntt_red_ct_rev2std]. repeat (calm_walk || apply calm_ct_r2s_size16 || apply calm_ct_s2r_finish). Qed.
Lemma calm_mulntt_red_ct_rev2std a n p : calm (mulntt_red_ct_rev2std a n p).
Proof. cbv delta [mulntt_red_ct_rev2std]. repeat (calm_walk || apply calm_ct_r2s_size16 || apply calm_ct_s2r_finish). Qed.
Lemma calm_ntt_red_ct_std2rev a n p : calm (ntt_red_ct_std2rev a n p).
Proof. cbv delta [ntt_red_ct_std2rev]. repeat (calm_walk || apply calm_ct_r2s_size16 || apply calm_ct_s2r_finish). Qed.
Lemma calm_mulntt_red_ct_std2rev a n p : calm (mulntt_red_ct_std2rev a n p).
Proof. cbv delta [mulntt_red_ct_std2rev]. repeat (calm_walk || apply calm_ct_r2s_size16 || apply calm_ct_s2r_finish). Qed.
Lemma calm_ntt_red_gs_rev2std a n p : calm (ntt_red_gs_rev2std a n p).
Proof. cbv delta [ntt_red_gs_rev2std]. repeat (calm_walk || apply calm_ct_r2s_size16 || apply calm_ct_s2r_finish). Qed.
Lemma calm_nttmul_red_gs_rev2std a n p : calm (nttmul_red_gs_rev2std a n p).
Proof. cbv delta [nttmul_red_gs_rev2std]. repeat (calm_walk || apply calm_ct_r2s_size16 || apply calm_ct_s2r_finish). Qed.
Lemma calm_ntt_red_gs_std2rev a n p : calm (ntt_red_gs_std2rev a n p).
Proof. cbv delta [ntt_red_gs_std2rev]. repeat (calm_walk || apply calm_ct_r2s_size16 || apply calm_ct_s2r_finish). Qed.
Lemma calm_nttmul_red_gs_std2rev a n p : calm (nttmul_red_gs_std2rev a n p).
Proof. cbv delta [nttmul_red_gs_std2rev]. repeat (calm_walk || apply calm_ct_r2s_size16 || apply calm_ct_s2r_finish). Qed.
Lemma calm_ntt_red_ct_rev2std_asm a n p : calm (ntt_red_ct_rev2std_asm a n p).
Proof. cbv delta [ntt_red_ct_rev2std_asm]. repeat (calm_walk || apply calm_ct_r2s_size16 || apply calm_ct_s2r_finish). Qed.
Lemma calm_mulntt_red_ct_rev2std_asm a n p : calm (mulntt_red_ct_rev2std_asm a n p).
Proof. cbv delta [mulntt_red_ct_rev2std_asm]. repeat (calm_walk || apply calm_ct_r2s_size16 || apply calm_ct_s2r_finish). Qed.
Lemma calm_ntt_red_ct_std2rev_asm a n p : calm (ntt_red_ct_std2rev_asm a n p).
Proof. cbv delta [ntt_red_ct_std2rev_asm]. repeat (calm_walk || apply calm_ct_r2s_size16 || apply calm_ct_s2r_finish). Qed.
Lemma calm_mulntt_red_ct_std2rev_asm a n p : calm (mulntt_red_ct_std2rev_asm a n p).
Proof. cbv delta [mulntt_red_ct_std2rev_asm]. repeat (calm_walk || apply calm_ct_r2s_size16 || apply calm_ct_s2r_finish). Qed.
Lemma calm_ntt_red_gs_rev2std_asm a n p : calm (ntt_red_gs_rev2std_asm a n p).
Proof. cbv delta [ntt_red_gs_rev2std_asm]. repeat (calm_walk || apply calm_ct_r2s_size16 || apply calm_ct_s2r_finish). Qed.
Lemma calm_nttmul_red_gs_rev2std_asm a n p : calm (nttmul_red_gs_rev2std_asm a n p).
Proof. cbv delta [nttmul_red_gs_rev2std_asm]. repeat (calm_walk || apply calm_ct_r2s_size16 || apply calm_ct_s2r_finish). Qed.
Lemma calm_ntt_red_gs_std2rev_asm a n p : calm (ntt_red_gs_std2rev_asm a n p).
Proof. cbv delta [ntt_red_gs_std2rev_asm]. repeat (calm_walk || apply calm_ct_r2s_size16 || apply calm_ct_s2r_finish). Qed.
Lemma calm_nttmul_red_gs_std2rev_asm a n p : calm (nttmul_red_gs_std2rev_asm a n p).
Proof. cbv delta [nttmul_red_gs_std2rev_asm]. repeat (calm_walk || apply calm_ct_r2s_size16 || apply calm_ct_s2r_finish). Qed.
