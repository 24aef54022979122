(** The functions and products on arbitrary contents: the lemmas behind PropSafe. *)

From Coq Require Import ZArith List Bool Lia.
From Verif Require Import CSem Spec Loops SafeC FrameFinal ModelGen.
From Verif Require ModelNtt ModelNaive ModelRed ModelAvx ModelProducts ModelAvxProd AvxArrays Shuffle.
Import ListNotations.
Open Scope Z_scope.

Definition Eov (e : err) : Prop := e = SignedOverflow.
Definition Ediv (q : Z) (e : err) : Prop := e = SignedOverflow \/ e = DivByZero /\ q = 0.
Definition Eas (e : err) : Prop := e = SignedOverflow \/ e = AssertFail.
Lemma ov_ov : Eov SignedOverflow. Proof. reflexivity. Qed.
Lemma ov_div q : Ediv q SignedOverflow. Proof. left. reflexivity. Qed.
Lemma ov_as : Eas SignedOverflow. Proof. left. reflexivity. Qed.
Lemma as_as : Eas AssertFail. Proof. right. reflexivity. Qed.
Lemma div_div q : q <> 0 \/ Ediv q DivByZero.
Proof. destruct (Z.eq_dec q 0) as [->|H]; [right; right; split; reflexivity|left; exact H]. Qed.

Lemma safe_sub_mod x y : safe Eov (fun _ => True) (ModelNtt.sub_mod x y).
Proof.
  unfold ModelNtt.sub_mod. apply (safe_bind _ (fun _ => True)); [apply safe_i32, ov_ov|]. intros; apply safe_i32, ov_ov.
Qed.
Lemma safe_add_mod x y : safe Eov (fun _ => True) (ModelNtt.add_mod x y).
Proof.
  unfold ModelNtt.add_mod. do 2 (apply (safe_bind _ (fun _ => True)); [apply safe_i32, ov_ov|]; intros ? _). apply safe_i32, ov_ov.
Qed.
Lemma safe_red x : safe Eas (fun _ => True) (ModelRed.red x).
Proof. unfold ModelRed.red. apply (safe_bind _ (fun _ => True)); [apply safe_i32, ov_as|]. intros; apply safe_i32, ov_as. Qed.
Lemma safe_mul_red x y : safe Eas (fun _ => True) (ModelRed.mul_red x y).
Proof.
  unfold ModelRed.mul_red. apply (safe_bind _ (fun _ => True)); [apply safe_i64, ov_as|]. intros z _.
  apply (safe_bind _ (fun _ => True)); [apply safe_assert, as_as|]. intros _ _. cbv zeta.
  apply (safe_bind _ (fun _ => True)); [apply safe_i32, ov_as|]. intros; apply safe_i32, ov_as.
Qed.

Ltac ovf := first [exact ov_ov | exact ov_as | apply ov_div].
Ltac prim L :=
  lazymatch goal with
  | |- safe _ _ (rd _ _) => apply safe_rd; lia
  | |- safe _ _ (wr _ _ _) => apply (safe_wr _ L); [assumption|lia]
  | |- safe _ _ (mul32 _ _) => apply safe_i32; ovf
  | |- safe _ _ (add32 _ _) => apply safe_i32; ovf
  | |- safe _ _ (sub32 _ _) => apply safe_i32; ovf
  | |- safe _ _ (mul64 _ _) => apply safe_i64; ovf
  | |- safe _ _ (rem32 _ _) => apply safe_rem32; [ovf|first [left; discriminate | apply div_div]]
  | |- safe _ _ (rem64 _ _) => apply safe_rem64; [ovf|first [left; discriminate | apply div_div]]
  | |- safe _ _ (cassert _) => apply safe_assert; exact as_as
  | |- safe _ _ (ModelNtt.sub_mod _ _) => apply safe_sub_mod
  | |- safe _ _ (ModelNtt.add_mod _ _) => apply safe_add_mod
  | |- safe _ _ (ModelRed.red _) => apply safe_red
  | |- safe _ _ (ModelRed.mul_red _ _) => apply safe_mul_red
  | |- safe _ _ (Ok _) => exact I
  | |- safe _ _ (if ?c then _ else _) => destruct c; prim L
  end.
Ltac steps L :=
  cbv zeta;
  lazymatch goal with
  | |- safe ?E _ (bind (wr ?a ?i ?v) _) =>
      apply (safe_bind E (fun r => zlen r = L)); [prim L|]; intros ? ?; steps L
  | |- safe ?E _ (bind _ _) =>
      apply (safe_bind E (fun _ => True)); [prim L|]; intros ? _; steps L
  | |- _ => prim L
  end.

Section Fns.
Variables (k L : Z).
Hypotheses (Hk : 0 <= k <= 31) (HL : 2 ^ k <= L).
Notation n := (2 ^ k).

Ltac good_tac :=
  intros s t a Hs Ht Hst Ha; pose proof (n_bounds k Hk); unfold len in *.
Lemma g_bfly0 : good Eov k L ModelNtt.bfly0.
Proof using Hk HL. good_tac. unfold ModelNtt.bfly0. rewrite !(u32_id (s + t)) by lia. steps L. Qed.
Lemma g_ct w : good Eov k L (ModelNtt.ct_bfly w).
Proof using Hk HL. good_tac. unfold ModelNtt.ct_bfly. rewrite !(u32_id (s + t)) by lia. steps L. Qed.
Lemma g_gs w : good Eov k L (ModelNtt.gs_bfly w).
Proof using Hk HL. good_tac. unfold ModelNtt.gs_bfly. rewrite !(u32_id (s + t)) by lia. steps L. Qed.
Lemma g_bfly0_red : good Eas k L ModelRed.bfly0_red.
Proof using Hk HL. good_tac. unfold ModelRed.bfly0_red. rewrite !(u32_id (s + t)) by lia. steps L. Qed.
Lemma g_ct_red w : good Eas k L (ModelRed.ct_bfly_red w).
Proof using Hk HL. good_tac. unfold ModelRed.ct_bfly_red. rewrite !(u32_id (s + t)) by lia. steps L. Qed.
Lemma g_gs_red w : good Eas k L (ModelRed.gs_bfly_red w).
Proof using Hk HL. good_tac. unfold ModelRed.gs_bfly_red. rewrite !(u32_id (s + t)) by lia. steps L. Qed.
Lemma g_bfly0_naive q : good (Ediv q) k L (ModelNaive.bfly0_naive q).
Proof using Hk HL. good_tac. unfold ModelNaive.bfly0_naive. rewrite !(u32_id (s + t)) by lia. steps L. Qed.
Lemma g_ct_naive q w : good (Ediv q) k L (ModelNaive.ct_bfly_naive q w).
Proof using Hk HL. good_tac. unfold ModelNaive.ct_bfly_naive. rewrite !(u32_id (s + t)) by lia. steps L. Qed.
Lemma g_gs_naive q w : good (Ediv q) k L (ModelNaive.gs_bfly_naive q w).
Proof using Hk HL. good_tac. unfold ModelNaive.gs_bfly_naive. rewrite !(u32_id (s + t)) by lia. steps L. Qed.

Variables (a p : list Z).
Hypotheses (Ha : zlen a = L) (Hp : n <= zlen p).

Ltac two lem b0 b g0 g := first [exact (lem _ k L Hk HL b0 b p g0 g Hp a Ha) | exact (lem _ k L Hk b0 b p g0 g Hp a Ha)].
Ltac one lem b g := first [exact (lem _ k L Hk HL b p g Hp a Ha) | exact (lem _ k L Hk b p g Hp a Ha)].
Lemma s_ntt_ct_rev2std : safe Eov (fun r => zlen r = L) (ModelNtt.ntt_ct_rev2std a n p).
Proof using Hk HL Ha Hp. two shape_ct_rev2std ModelNtt.bfly0 ModelNtt.ct_bfly g_bfly0 g_ct. Qed.
Lemma s_ntt_ct_std2rev : safe Eov (fun r => zlen r = L) (ModelNtt.ntt_ct_std2rev a n p).
Proof using Hk HL Ha Hp. two shape_ct_std2rev ModelNtt.bfly0 ModelNtt.ct_bfly g_bfly0 g_ct. Qed.
Lemma s_ntt_gs_rev2std : safe Eov (fun r => zlen r = L) (ModelNtt.ntt_gs_rev2std a n p).
Proof using Hk HL Ha Hp. two shape_gs_rev2std ModelNtt.bfly0 ModelNtt.gs_bfly g_bfly0 g_gs. Qed.
Lemma s_ntt_gs_std2rev : safe Eov (fun r => zlen r = L) (ModelNtt.ntt_gs_std2rev a n p).
Proof using Hk HL Ha Hp. two shape_gs_std2rev ModelNtt.bfly0 ModelNtt.gs_bfly g_bfly0 g_gs. Qed.
Lemma s_mulntt_ct_rev2std : safe Eov (fun r => zlen r = L) (ModelNtt.mulntt_ct_rev2std a n p).
Proof using Hk HL Ha Hp. one shape_mul_rev2std ModelNtt.ct_bfly g_ct. Qed.
Lemma s_mulntt_ct_std2rev : safe Eov (fun r => zlen r = L) (ModelNtt.mulntt_ct_std2rev a n p).
Proof using Hk HL Ha Hp. one shape_mulct_std2rev ModelNtt.ct_bfly g_ct. Qed.
Lemma s_nttmul_gs_rev2std : safe Eov (fun r => zlen r = L) (ModelNtt.nttmul_gs_rev2std a n p).
Proof using Hk HL Ha Hp. one shape_mulgs_rev2std ModelNtt.gs_bfly g_gs. Qed.
Lemma s_nttmul_gs_std2rev : safe Eov (fun r => zlen r = L) (ModelNtt.nttmul_gs_std2rev a n p).
Proof using Hk HL Ha Hp. one shape_mul_std2rev ModelNtt.gs_bfly g_gs. Qed.
Lemma s_ntt_ct_rev2std_v1 : safe Eov (fun r => zlen r = L) (ModelNtt.ntt_ct_rev2std_v1 a n p).
Proof using Hk HL Ha Hp. two shape_v1 ModelNtt.bfly0 ModelNtt.ct_bfly g_bfly0 g_ct. Qed.
Lemma s_ntt_red_ct_rev2std : safe Eas (fun r => zlen r = L) (ModelRed.ntt_red_ct_rev2std a n p).
Proof using Hk HL Ha Hp. two shape_ct_rev2std ModelRed.bfly0_red ModelRed.ct_bfly_red g_bfly0_red g_ct_red. Qed.
Lemma s_ntt_red_ct_std2rev : safe Eas (fun r => zlen r = L) (ModelRed.ntt_red_ct_std2rev a n p).
Proof using Hk HL Ha Hp. two shape_ct_std2rev ModelRed.bfly0_red ModelRed.ct_bfly_red g_bfly0_red g_ct_red. Qed.
Lemma s_ntt_red_gs_rev2std : safe Eas (fun r => zlen r = L) (ModelRed.ntt_red_gs_rev2std a n p).
Proof using Hk HL Ha Hp. two shape_gs_rev2std ModelRed.bfly0_red ModelRed.gs_bfly_red g_bfly0_red g_gs_red. Qed.
Lemma s_ntt_red_gs_std2rev : safe Eas (fun r => zlen r = L) (ModelRed.ntt_red_gs_std2rev a n p).
Proof using Hk HL Ha Hp. two shape_gs_std2rev ModelRed.bfly0_red ModelRed.gs_bfly_red g_bfly0_red g_gs_red. Qed.
Lemma s_mulntt_red_ct_rev2std : safe Eas (fun r => zlen r = L) (ModelRed.mulntt_red_ct_rev2std a n p).
Proof using Hk HL Ha Hp. one shape_mul_rev2std ModelRed.ct_bfly_red g_ct_red. Qed.
Lemma s_mulntt_red_ct_std2rev : safe Eas (fun r => zlen r = L) (ModelRed.mulntt_red_ct_std2rev a n p).
Proof using Hk HL Ha Hp. one shape_mulct_std2rev ModelRed.ct_bfly_red g_ct_red. Qed.
Lemma s_nttmul_red_gs_rev2std : safe Eas (fun r => zlen r = L) (ModelRed.nttmul_red_gs_rev2std a n p).
Proof using Hk HL Ha Hp. one shape_mulgs_rev2std ModelRed.gs_bfly_red g_gs_red. Qed.
Lemma s_nttmul_red_gs_std2rev : safe Eas (fun r => zlen r = L) (ModelRed.nttmul_red_gs_std2rev a n p).
Proof using Hk HL Ha Hp. one shape_mul_std2rev ModelRed.gs_bfly_red g_gs_red. Qed.
Lemma s_ntt_ct_rev2std_naive q : safe (Ediv q) (fun r => zlen r = L) (ModelNaive.ntt_ct_rev2std_naive a n p q).
Proof using Hk HL Ha Hp. two shape_ct_rev2std (ModelNaive.bfly0_naive q) (ModelNaive.ct_bfly_naive q) (g_bfly0_naive q) (g_ct_naive q). Qed.
Lemma s_ntt_ct_std2rev_naive q : safe (Ediv q) (fun r => zlen r = L) (ModelNaive.ntt_ct_std2rev_naive a n p q).
Proof using Hk HL Ha Hp. two shape_ct_std2rev (ModelNaive.bfly0_naive q) (ModelNaive.ct_bfly_naive q) (g_bfly0_naive q) (g_ct_naive q). Qed.
Lemma s_ntt_gs_rev2std_naive q : safe (Ediv q) (fun r => zlen r = L) (ModelNaive.ntt_gs_rev2std_naive a n p q).
Proof using Hk HL Ha Hp. two shape_gs_rev2std (ModelNaive.bfly0_naive q) (ModelNaive.gs_bfly_naive q) (g_bfly0_naive q) (g_gs_naive q). Qed.
Lemma s_ntt_gs_std2rev_naive q : safe (Ediv q) (fun r => zlen r = L) (ModelNaive.ntt_gs_std2rev_naive a n p q).
Proof using Hk HL Ha Hp. two shape_gs_std2rev (ModelNaive.bfly0_naive q) (ModelNaive.gs_bfly_naive q) (g_bfly0_naive q) (g_gs_naive q). Qed.
Lemma s_mulntt_ct_rev2std_naive q : safe (Ediv q) (fun r => zlen r = L) (ModelNaive.mulntt_ct_rev2std_naive a n p q).
Proof using Hk HL Ha Hp. one shape_mul_rev2std (ModelNaive.ct_bfly_naive q) (g_ct_naive q). Qed.
Lemma s_mulntt_ct_std2rev_naive q : safe (Ediv q) (fun r => zlen r = L) (ModelNaive.mulntt_ct_std2rev_naive a n p q).
Proof using Hk HL Ha Hp. one shape_mulct_std2rev (ModelNaive.ct_bfly_naive q) (g_ct_naive q). Qed.
Lemma s_nttmul_gs_rev2std_naive q : safe (Ediv q) (fun r => zlen r = L) (ModelNaive.nttmul_gs_rev2std_naive a n p q).
Proof using Hk HL Ha Hp. one shape_mulgs_rev2std (ModelNaive.gs_bfly_naive q) (g_gs_naive q). Qed.
Lemma s_nttmul_gs_std2rev_naive q : safe (Ediv q) (fun r => zlen r = L) (ModelNaive.nttmul_gs_std2rev_naive a n p q).
Proof using Hk HL Ha Hp. one shape_mul_std2rev (ModelNaive.gs_bfly_naive q) (g_gs_naive q). Qed.
End Fns.

(** Functions on arrays, for any [n] *)
Section Arr.
Variables (m L : Z) (a : list Z).
Hypotheses (Hm : 0 <= m < 2 ^ 32) (HL : m <= L) (Ha : zlen a = L).
Ltac arr f := unfold f; apply (safe_array _ (fun r => zlen r = L)); [exact Hm| |exact Ha]; intros i x Hi Hx; steps L.
Lemma s_scalar_mul_array c : safe Eov (fun r => zlen r = L) (ModelNtt.scalar_mul_array a m c).
Proof using Hm HL Ha. arr ModelNtt.scalar_mul_array. Qed.
Lemma s_scalar_mul_reduce_array c : safe Eas (fun r => zlen r = L) (ModelRed.scalar_mul_reduce_array a m c).
Proof using Hm HL Ha. arr ModelRed.scalar_mul_reduce_array. Qed.
Lemma s_scalar_mul_array_naive c q : safe (Ediv q) (fun r => zlen r = L) (ModelNaive.scalar_mul_array_naive a m c q).
Proof using Hm HL Ha. arr ModelNaive.scalar_mul_array_naive. Qed.
Lemma s_normalize : safe Eas (fun r => zlen r = L) (ModelRed.normalize a m).
Proof using Hm HL Ha. arr ModelRed.normalize. Qed.
Lemma s_normalize_inv3 : safe Eas (fun r => zlen r = L) (ModelRed.normalize_inv3 a m).
Proof using Hm HL Ha. arr ModelRed.normalize_inv3. Qed.
Lemma s_shift_array : safe Eas (fun r => zlen r = L) (ModelRed.shift_array a m).
Proof using Hm HL Ha. arr ModelRed.shift_array. Qed.
Lemma s_reduce_array : safe Eas (fun r => zlen r = L) (ModelRed.reduce_array a m).
Proof using Hm HL Ha. arr ModelRed.reduce_array. Qed.
Lemma s_reduce_array_twice : safe Eas (fun r => zlen r = L) (ModelRed.reduce_array_twice a m).
Proof using Hm HL Ha. arr ModelRed.reduce_array_twice. Qed.
Lemma s_correct : safe Eas (fun r => zlen r = L) (ModelRed.correct a m).
Proof using Hm HL Ha. arr ModelRed.correct. Qed.
Variable p : list Z.
Hypothesis Hp : m <= zlen p.
Lemma s_mul_array16 : safe Eov (fun r => zlen r = L) (ModelNtt.mul_array16 a m p).
Proof using Hm HL Ha Hp. arr ModelNtt.mul_array16. Qed.
Lemma s_mul_reduce_array16 : safe Eas (fun r => zlen r = L) (ModelRed.mul_reduce_array16 a m p).
Proof using Hm HL Ha Hp. arr ModelRed.mul_reduce_array16. Qed.
Lemma s_mul_array16_naive q : safe (Ediv q) (fun r => zlen r = L) (ModelNaive.mul_array16_naive a m p q).
Proof using Hm HL Ha Hp. arr ModelNaive.mul_array16_naive. Qed.
End Arr.







(** ** Products *)
Section Heap.
Variable Lf : Z -> Z.
Definition hl (h : heap) : Prop := forall x, zlen (h x) = Lf x.
Lemma hl_set h x l : hl h -> zlen l = Lf x -> hl (hset h x l).
Proof. intros H Hl y. unfold hset. destruct (Z.eqb_spec y x) as [->|]; [exact Hl|apply H]. Qed.
Lemma safe_on E x f h : (forall a, zlen a = Lf x -> safe E (fun r => zlen r = Lf x) (f a)) -> hl h ->
  safe E hl (ModelProducts.on x f h).
Proof.
  intros Hf Hh. unfold ModelProducts.on. apply (safe_bind E (fun r => zlen r = Lf x)); [apply Hf, Hh|].
  intros l Hl. apply safe_ok, hl_set; assumption.
Qed.
Lemma on_bind E x f h (g : heap -> res heap) : (forall a, zlen a = Lf x -> safe E (fun r => zlen r = Lf x) (f a)) -> hl h ->
  (forall h, hl h -> safe E hl (g h)) -> safe E hl (bind (ModelProducts.on x f h) g).
Proof. intros Hf Hh Hg. apply (safe_bind E hl); [apply safe_on; assumption|exact Hg]. Qed.

Ltac pw c L :=
  match goal with |- safe ?E _ _ => apply (safe_array E hl) end;
  [assumption| |assumption]; intros i g Hi Hg;
  steps_h L
with steps_h L :=
  cbv zeta;
  lazymatch goal with
  | |- safe ?E _ (bind (wr _ _ _) _) =>
      apply (safe_bind E (fun r => zlen r = L)); [apply safe_wr; [match goal with H : hl _ |- _ => apply H end|lia]|];
      intros ? ?; apply safe_ok, hl_set; assumption
  | |- safe ?E _ (bind (rd (?g ?x) ?i) _) =>
      apply (safe_bind E (fun _ => True)); [apply safe_rd; match goal with H : hl g |- _ => rewrite H end; lia|]; intros ? _; steps_h L
  | |- safe ?E _ (bind _ _) =>
      apply (safe_bind E (fun _ => True)); [prim L|]; intros ? _; steps_h L
  end.
Lemma s_mul_array_h m h c a b : 0 <= m < 2 ^ 32 -> hl h -> m <= Lf a -> m <= Lf b -> m <= Lf c ->
  safe Eov hl (ModelNtt.mul_array_h h c m a b).
Proof. intros Hm Hh La Lb Lc. unfold ModelNtt.mul_array_h. pw c (Lf c). Qed.
Lemma s_mul_reduce_array_h m h c a b : 0 <= m < 2 ^ 32 -> hl h -> m <= Lf a -> m <= Lf b -> m <= Lf c ->
  safe Eas hl (ModelRed.mul_reduce_array_h h c m a b).
Proof. intros Hm Hh La Lb Lc. unfold ModelRed.mul_reduce_array_h. pw c (Lf c). Qed.
Lemma s_mul_array_naive_h q m h c a b : 0 <= m < 2 ^ 32 -> hl h -> m <= Lf a -> m <= Lf b -> m <= Lf c ->
  safe (Ediv q) hl (ModelNaive.mul_array_naive_h h c m a b q).
Proof. intros Hm Hh La Lb Lc. unfold ModelNaive.mul_array_naive_h. pw c (Lf c). Qed.
Lemma s_mul_reduce_array_asm_h m h c a b : 0 < m < 2 ^ 32 -> m mod 16 = 0 -> hl h -> m <= Lf a -> m <= Lf b -> m <= Lf c ->
  safe (fun _ => False) hl (ModelAvx.mul_reduce_array_asm_h h c m a b).
Proof.
  intros Hm H16 Hh La Lb Lc.
  destruct (AvxArrays.mul_reduce_array_asm_h_spec h c m a b) as (h' & -> & [HL' _] & Ho);
    [split; [exact Hm|exact H16]|rewrite Hh; assumption..|].
  cbn. intros x. destruct (Z.eq_dec x c) as [->|Hx]; [rewrite HL'; apply Hh|rewrite Ho by exact Hx; apply Hh].
Qed.
End Heap.

(** the AVX2 routines with arrays that may be longer *)
Section Asm.
Variables (m L : Z) (a : list Z).
Hypotheses (Hm : 0 <= m) (HL : m <= L) (Ha : zlen a = L).
Lemma total_len (f : list Z -> res (list Z)) :
  (forall b, zlen b = m -> exists r, f b = Ok r /\ zlen r = m /\ forall s, f (b ++ s) = Ok (r ++ s)) ->
  safe (fun _ => False) (fun r => zlen r = L) (f a).
Proof.
  intros H. destruct (split_len m a ltac:(lia)) as (b & s & Eb & Lb). subst a.
  destruct (H b Lb) as (r & _ & Lr & V). rewrite (V s). cbn. unfold zlen in *. rewrite app_length in *. lia.
Qed.
End Asm.
Ltac inl i := apply (nth_error_In _ i); reflexivity.
Section AsmFns.
Variables (k L : Z) (a p : list Z).
Hypotheses (Hk : 4 <= k <= 31) (HL : 2 ^ k <= L) (Ha : zlen a = L) (Hp : 2 ^ k <= zlen p).
Lemma pow16 : 0 < 2 ^ k < 2 ^ 32 /\ (2 ^ k) mod 16 = 0.
Proof using Hk.
  split; [split; [apply Z.pow_pos_nonneg; lia|apply Z.pow_lt_mono_r; lia]|].
  replace k with (k - 4 + 4) by lia. rewrite Z.pow_add_r by lia. apply Z.mod_mul. discriminate.
Qed.
Lemma s_asm_tab f : In f
    [ModelAvx.ntt_red_ct_rev2std_asm;
     ModelAvx.ntt_red_ct_std2rev_asm;
     ModelAvx.ntt_red_gs_rev2std_asm;
     ModelAvx.ntt_red_gs_std2rev_asm;
     ModelAvx.mulntt_red_ct_rev2std_asm;
     ModelAvx.mulntt_red_ct_std2rev_asm;
     ModelAvx.nttmul_red_gs_rev2std_asm;
     ModelAvx.nttmul_red_gs_std2rev_asm] -> safe (fun _ => False) (fun r => zlen r = L) (f a (2 ^ k) p).
Proof using Hk HL Ha Hp.
  intros HI. destruct pow16 as [B _]. apply (total_len (2 ^ k) L a ltac:(lia) HL Ha (fun x => f x (2 ^ k) p)). intros b Lb.
  destruct asm_in_bounds_L as (H & _). destruct (H f HI k b p Hk Lb Hp) as (r & E & Lr & V).
  exists r. split; [exact E|]. split; [exact Lr|]. intros s. specialize (V s []). rewrite app_nil_r in V. exact V.
Qed.
Lemma s_asm_mul16 : safe (fun _ => False) (fun r => zlen r = L) (ModelAvx.mul_reduce_array16_asm a (2 ^ k) p).
Proof using Hk HL Ha Hp.
  destruct pow16 as [B B16]. apply (total_len (2 ^ k) L a ltac:(lia) HL Ha (fun x => ModelAvx.mul_reduce_array16_asm x (2 ^ k) p)). intros b Lb.
  destruct asm_in_bounds_L as (_ & H & _). destruct (H ModelAvx.mul_reduce_array16_asm ltac:(inl 0%nat) (2 ^ k) b p B B16 Lb Hp) as (r & E & Lr & V).
  exists r. split; [exact E|]. split; [exact Lr|]. intros s. specialize (V s []). rewrite app_nil_r in V. exact V.
Qed.
Lemma s_asm_arr f : In f
    [ModelAvx.reduce_array_asm;
     ModelAvx.reduce_array_asm2;
     ModelAvx.reduce_array_twice_asm;
     ModelAvx.reduce_array_twice_asm2;
     ModelAvx.correct_asm;
     ModelAvx.shift_array_asm] -> safe (fun _ => False) (fun r => zlen r = L) (f a (2 ^ k)).
Proof using Hk HL Ha.
  intros HI. destruct pow16 as [B B16]. apply (total_len (2 ^ k) L a ltac:(lia) HL Ha (fun x => f x (2 ^ k))). intros b Lb.
  destruct asm_in_bounds_L as (_ & _ & H & _). exact (H f HI (2 ^ k) b B B16 Lb).
Qed.
Lemma s_asm_scalar c : safe (fun _ => False) (fun r => zlen r = L) (ModelAvx.scalar_mul_reduce_array_asm a (2 ^ k) c).
Proof using Hk HL Ha.
  destruct pow16 as [B B16]. apply (total_len (2 ^ k) L a ltac:(lia) HL Ha (fun x => ModelAvx.scalar_mul_reduce_array_asm x (2 ^ k) c)). intros b Lb.
  destruct asm_in_bounds_L as (_ & _ & _ & H). exact (H (2 ^ k) b c B B16 Lb).
Qed.
End AsmFns.

(** ** Statements *)
Lemma out_ov {A} P (m : res A) : safe Eov P m -> (exists r, m = Ok r /\ P r) \/ m = Err SignedOverflow.
Proof. destruct m as [r|e]; cbn; [intros H; left; eauto|intros ->; right; reflexivity]. Qed.
Lemma out_div {A} P q (m : res A) : safe (Ediv q) P m ->
  (exists r, m = Ok r /\ P r) \/ m = Err SignedOverflow \/ q = 0 /\ m = Err DivByZero.
Proof. destruct m as [r|e]; cbn; [intros H; left; eauto|intros [->|[-> H]]; right; [left; reflexivity|right; split; [exact H|reflexivity]]]. Qed.
Lemma out_as {A} P (m : res A) : safe Eas P m -> (exists r, m = Ok r /\ P r) \/ m = Err SignedOverflow \/ m = Err AssertFail.
Proof. destruct m as [r|e]; cbn; [intros H; left; eauto|intros [->| ->]; right; [left|right]; reflexivity]. Qed.
Lemma out_no {A} P (m : res A) : safe (fun _ => False) P m -> exists r, m = Ok r /\ P r.
Proof. destruct m as [r|e]; cbn; [eauto|intros []]. Qed.
Ltac tabs H := repeat match type of H with Forall _ (_ :: _) => let H1 := fresh "T" in let H2 := fresh in
  pose proof (Forall_inv H) as H1; pose proof (Forall_inv_tail H) as H2; clear H; rename H2 into H; cbv beta in H1 end; clear H.
Lemma pow32 k : 0 <= k <= 31 -> 0 <= 2 ^ k < 2 ^ 32.
Proof. intros H. split; [apply Z.pow_nonneg; lia|apply Z.pow_lt_mono_r; lia]. Qed.
Ltac on_step tac := apply on_bind; [intros ? ?; cbv beta; tac|assumption|intros ? ?; cbv beta].

Lemma products_default k T f (Lf : Z -> Z) : 0 <= k <= 31 -> Forall (fun p => 2 ^ k <= zlen p) [psi_powers T; scaled_inv_psi_powers T; omega_powers T; omega_powers_rev T;
      inv_omega_powers T; inv_omega_powers_rev T; mixed_powers_rev T; inv_mixed_powers_rev T] ->
  In f [ModelProducts.ntt_product1 (2 ^ k) T;
     ModelProducts.ntt_product2 (2 ^ k) T;
     ModelProducts.ntt_product3 (2 ^ k) T;
     ModelProducts.ntt_product4 (2 ^ k) T;
     ModelProducts.ntt_product5 (2 ^ k) T] ->
  forall h c a b, hl Lf h -> 2 ^ k <= Lf c -> 2 ^ k <= Lf a -> 2 ^ k <= Lf b -> safe Eov (hl Lf) (f h c a b).
Proof.
  intros Hk HT HI h c a b Hh Lc La Lb. tabs HT. pose proof (pow32 k Hk) as Hn.
  Ltac d_op Hk := idtac; lazymatch goal with
    | |- safe _ _ (ModelNtt.mul_array16 _ _ _) => apply s_mul_array16; assumption
    | |- safe _ _ (ModelNtt.scalar_mul_array _ _ _) => apply s_scalar_mul_array; assumption
    | |- safe _ _ (ModelProducts.n_ct_std2rev _ _ _) => apply s_ntt_ct_std2rev; assumption
    | |- safe _ _ (ModelProducts.n_gs_std2rev _ _ _) => apply s_ntt_gs_std2rev; assumption
    | |- safe _ _ (ModelProducts.n_intt_ct_rev2std _ _ _) => apply s_ntt_ct_rev2std; assumption
    | |- safe _ _ (ModelProducts.n_intt_gs_rev2std _ _ _) => apply s_ntt_gs_rev2std; assumption
    | |- safe _ _ (ModelProducts.n_mulntt_ct_std2rev _ _ _) => apply s_mulntt_ct_std2rev; assumption
    | |- safe _ _ (ModelProducts.n_inttmul_gs_rev2std _ _ _) => apply s_nttmul_gs_rev2std; assumption end.
  in_cases HI;
  [unfold ModelProducts.ntt_product1|unfold ModelProducts.ntt_product2|unfold ModelProducts.ntt_product3|unfold ModelProducts.ntt_product4|unfold ModelProducts.ntt_product5];
  repeat lazymatch goal with
    | |- safe _ _ (bind (ModelProducts.on _ _ _) _) => on_step ltac:(idtac; d_op Hk)
    | |- safe ?E _ (bind (ModelNtt.mul_array_h _ _ _ _ _) _) => apply (safe_bind E (hl Lf)); [apply s_mul_array_h; assumption|intros ? ?; cbv beta]
    | |- safe _ _ (Ok _) => apply safe_ok; assumption end.
Qed.
Lemma products_naive k T f (Lf : Z -> Z) : 0 <= k <= 31 -> Forall (fun p => 2 ^ k <= zlen p) [psi_powers T; scaled_inv_psi_powers T; omega_powers T; omega_powers_rev T;
      inv_omega_powers T; inv_omega_powers_rev T; mixed_powers_rev T; inv_mixed_powers_rev T] ->
  In f [ModelProducts.naive_product1 (2 ^ k) T;
     ModelProducts.naive_product2 (2 ^ k) T;
     ModelProducts.naive_product3 (2 ^ k) T;
     ModelProducts.naive_product4 (2 ^ k) T;
     ModelProducts.naive_product5 (2 ^ k) T] ->
  forall h c a b, hl Lf h -> 2 ^ k <= Lf c -> 2 ^ k <= Lf a -> 2 ^ k <= Lf b -> safe (Ediv 12289) (hl Lf) (f h c a b).
Proof.
  intros Hk HT HI h c a b Hh Lc La Lb. tabs HT. pose proof (pow32 k Hk) as Hn.
  Ltac v_op Hk := idtac; lazymatch goal with
    | |- safe _ _ (ModelNaive.mul_array16_naive _ _ _ _) => apply s_mul_array16_naive; assumption
    | |- safe _ _ (ModelNaive.scalar_mul_array_naive _ _ _ _) => apply s_scalar_mul_array_naive; assumption
    | |- safe _ _ (ModelProducts.v_ct_std2rev _ _ _) => unfold ModelProducts.v_ct_std2rev; apply s_ntt_ct_std2rev_naive; assumption
    | |- safe _ _ (ModelProducts.v_gs_std2rev _ _ _) => unfold ModelProducts.v_gs_std2rev; apply s_ntt_gs_std2rev_naive; assumption
    | |- safe _ _ (ModelProducts.v_intt_ct_rev2std _ _ _) => unfold ModelProducts.v_intt_ct_rev2std; apply s_ntt_ct_rev2std_naive; assumption
    | |- safe _ _ (ModelProducts.v_intt_gs_rev2std _ _ _) => unfold ModelProducts.v_intt_gs_rev2std; apply s_ntt_gs_rev2std_naive; assumption
    | |- safe _ _ (ModelProducts.v_mulntt_ct_std2rev _ _ _) => unfold ModelProducts.v_mulntt_ct_std2rev; apply s_mulntt_ct_std2rev_naive; assumption
    | |- safe _ _ (ModelProducts.v_inttmul_gs_rev2std _ _ _) => unfold ModelProducts.v_inttmul_gs_rev2std; apply s_nttmul_gs_rev2std_naive; assumption end.
  in_cases HI;
  [unfold ModelProducts.naive_product1|unfold ModelProducts.naive_product2|unfold ModelProducts.naive_product3|unfold ModelProducts.naive_product4|unfold ModelProducts.naive_product5];
  repeat lazymatch goal with
    | |- safe _ _ (bind (ModelProducts.on _ _ _) _) => on_step ltac:(idtac; v_op Hk)
    | |- safe ?E _ (bind (ModelNaive.mul_array_naive_h _ _ _ _ _ _) _) => apply (safe_bind E (hl Lf)); [apply s_mul_array_naive_h; assumption|intros ? ?; cbv beta]
    | |- safe _ _ (Ok _) => apply safe_ok; assumption end.
Qed.
Lemma products_red k sh T f (Lf : Z -> Z) : 0 <= k <= 31 -> Forall (fun p => 2 ^ k <= zlen p) [red_psi_powers T; red_scaled_inv_psi_powers T; red_scaled_inv_psi_powers_var T; red_omega_powers T;
      red_omega_powers_rev T; red_inv_omega_powers T; red_inv_omega_powers_rev T; red_mixed_powers_rev T; red_inv_mixed_powers_rev T] ->
  In f [ModelProducts.red_product1 sh (2 ^ k) T;
     ModelProducts.red_product2 sh (2 ^ k) T;
     ModelProducts.red_product3 sh (2 ^ k) T;
     ModelProducts.red_product4 sh (2 ^ k) T;
     ModelProducts.red_product5 sh (2 ^ k) T] ->
  forall h c a b, hl Lf h -> 2 ^ k <= Lf c -> 2 ^ k <= Lf a -> 2 ^ k <= Lf b -> safe Eas (hl Lf) (f h c a b).
Proof.
  intros Hk HT HI h c a b Hh Lc La Lb. tabs HT. pose proof (pow32 k Hk) as Hn.
  Ltac r_op Hk := idtac; lazymatch goal with
    | |- safe _ _ (ModelProducts.maybe_shift _ _ _) => unfold ModelProducts.maybe_shift; match goal with |- safe _ _ (if ?s then _ else _) => destruct s end; [apply s_shift_array; assumption|apply safe_ok; assumption]
    | |- safe _ _ (ModelRed.mul_reduce_array16 _ _ _) => apply s_mul_reduce_array16; assumption
    | |- safe _ _ (ModelRed.reduce_array _ _) => apply s_reduce_array; assumption
    | |- safe _ _ (ModelRed.reduce_array_twice _ _) => apply s_reduce_array_twice; assumption
    | |- safe _ _ (ModelRed.correct _ _) => apply s_correct; assumption
    | |- safe _ _ (ModelRed.scalar_mul_reduce_array _ _ _) => apply s_scalar_mul_reduce_array; assumption
    | |- safe _ _ (ModelProducts.r_ct_std2rev _ _ _) => apply s_ntt_red_ct_std2rev; assumption
    | |- safe _ _ (ModelProducts.r_gs_std2rev _ _ _) => apply s_ntt_red_gs_std2rev; assumption
    | |- safe _ _ (ModelProducts.r_intt_ct_rev2std _ _ _) => apply s_ntt_red_ct_rev2std; assumption
    | |- safe _ _ (ModelProducts.r_intt_gs_rev2std _ _ _) => apply s_ntt_red_gs_rev2std; assumption
    | |- safe _ _ (ModelProducts.r_mulntt_ct_std2rev _ _ _) => apply s_mulntt_red_ct_std2rev; assumption
    | |- safe _ _ (ModelProducts.r_inttmul_gs_rev2std _ _ _) => apply s_nttmul_red_gs_rev2std; assumption end.
  in_cases HI;
  [unfold ModelProducts.red_product1|unfold ModelProducts.red_product2|unfold ModelProducts.red_product3|unfold ModelProducts.red_product4|unfold ModelProducts.red_product5];
  repeat lazymatch goal with
    | |- safe _ _ (bind (ModelProducts.on _ _ _) _) => on_step ltac:(idtac; r_op Hk)
    | |- safe ?E _ (bind (ModelRed.mul_reduce_array_h _ _ _ _ _) _) => apply (safe_bind E (hl Lf)); [apply s_mul_reduce_array_h; assumption|intros ? ?; cbv beta]
    | |- safe _ _ (Ok _) => apply safe_ok; assumption end.
Qed.
Lemma products_asm k sh T f (Lf : Z -> Z) : 4 <= k <= 31 -> Forall (fun p => 2 ^ k <= zlen p) [red_psi_powers T; red_scaled_inv_psi_powers T; red_scaled_inv_psi_powers_var T; red_omega_powers T;
      red_omega_powers_rev T; red_inv_omega_powers T; red_inv_omega_powers_rev T; red_mixed_powers_rev T; red_inv_mixed_powers_rev T] ->
  In f [ModelAvxProd.red_product1_asm sh (2 ^ k) T;
     ModelAvxProd.red_product2_asm sh (2 ^ k) T;
     ModelAvxProd.red_product3_asm sh (2 ^ k) T;
     ModelAvxProd.red_product4_asm sh (2 ^ k) T;
     ModelAvxProd.red_product5_asm sh (2 ^ k) T;
     ModelAvxProd.red1024_product1_asm (2 ^ k) T] ->
  forall h c a b, hl Lf h -> 2 ^ k <= Lf c -> 2 ^ k <= Lf a -> 2 ^ k <= Lf b -> safe (fun _ => False) (hl Lf) (f h c a b).
Proof.
  intros Hk HT HI h c a b Hh Lc La Lb. tabs HT. destruct (pow16 k Hk) as [Hn H16].
  Ltac x_op Hk := idtac; lazymatch goal with
    | |- safe _ _ (ModelAvxProd.maybe_shift_asm _ _ _) => unfold ModelAvxProd.maybe_shift_asm; match goal with |- safe _ _ (if ?s then _ else _) => destruct s end; [apply s_asm_arr; [assumption..|inl 5%nat]|apply safe_ok; assumption]
    | |- safe _ _ (ModelAvx.mul_reduce_array16_asm _ _ _) => apply s_asm_mul16; assumption
    | |- safe _ _ (ModelAvx.reduce_array_asm _ _) => apply s_asm_arr; [assumption..|inl 0%nat]
    | |- safe _ _ (ModelAvx.reduce_array_twice_asm _ _) => apply s_asm_arr; [assumption..|inl 2%nat]
    | |- safe _ _ (ModelAvx.correct_asm _ _) => apply s_asm_arr; [assumption..|inl 4%nat]
    | |- safe _ _ (ModelAvx.scalar_mul_reduce_array_asm _ _ _) => apply s_asm_scalar; assumption
    | |- safe _ _ (ModelAvxProd.x_ct_std2rev _ _ _) => apply s_asm_tab; [assumption..|inl 1%nat]
    | |- safe _ _ (ModelAvxProd.x_gs_std2rev _ _ _) => apply s_asm_tab; [assumption..|inl 3%nat]
    | |- safe _ _ (ModelAvxProd.x_intt_ct_rev2std _ _ _) => apply s_asm_tab; [assumption..|inl 0%nat]
    | |- safe _ _ (ModelAvxProd.x_intt_gs_rev2std _ _ _) => apply s_asm_tab; [assumption..|inl 2%nat]
    | |- safe _ _ (ModelAvxProd.x_mulntt_ct_std2rev _ _ _) => apply s_asm_tab; [assumption..|inl 5%nat]
    | |- safe _ _ (ModelAvxProd.x_inttmul_gs_rev2std _ _ _) => apply s_asm_tab; [assumption..|inl 6%nat] end.
  in_cases HI;
  [unfold ModelAvxProd.red_product1_asm|unfold ModelAvxProd.red_product2_asm|unfold ModelAvxProd.red_product3_asm|unfold ModelAvxProd.red_product4_asm|unfold ModelAvxProd.red_product5_asm|unfold ModelAvxProd.red1024_product1_asm];
  repeat lazymatch goal with
    | |- safe _ _ (bind (ModelProducts.on _ _ _) _) => on_step ltac:(idtac; x_op Hk)
    | |- safe ?E _ (bind (ModelAvx.mul_reduce_array_asm_h _ _ _ _ _) _) => apply (safe_bind E (hl Lf)); [apply s_mul_reduce_array_asm_h; assumption|intros ? ?; cbv beta]
    | |- safe _ _ (Ok _) => apply safe_ok; assumption end.
Qed.

Lemma default_stays_in_bounds_L :
(forall f, In f
    [ModelNtt.ntt_ct_rev2std;
     ModelNtt.ntt_ct_std2rev;
     ModelNtt.ntt_gs_rev2std;
     ModelNtt.ntt_gs_std2rev;
     ModelNtt.mulntt_ct_rev2std;
     ModelNtt.mulntt_ct_std2rev;
     ModelNtt.nttmul_gs_rev2std;
     ModelNtt.nttmul_gs_std2rev;
     ModelNtt.ntt_ct_rev2std_v1] ->
  forall k a p, 0 <= k <= 31 -> 2 ^ k <= zlen a -> 2 ^ k <= zlen p ->
    (exists r, f a (2 ^ k) p = Ok r /\ zlen r = zlen a) \/ f a (2 ^ k) p = Err SignedOverflow)
  /\ (forall n a p, 0 <= n < 2 ^ 32 -> n <= zlen a -> n <= zlen p ->
    (exists r, ModelNtt.mul_array16 a n p = Ok r /\ zlen r = zlen a) \/ ModelNtt.mul_array16 a n p = Err SignedOverflow)
  /\ (forall n a c, 0 <= n < 2 ^ 32 -> n <= zlen a ->
    (exists r, ModelNtt.scalar_mul_array a n c = Ok r /\ zlen r = zlen a) \/ ModelNtt.scalar_mul_array a n c = Err SignedOverflow)
  /\ (forall n h c a b, 0 <= n < 2 ^ 32 -> n <= zlen (h c) -> n <= zlen (h a) -> n <= zlen (h b) ->
    (exists r, ModelNtt.mul_array_h h c n a b = Ok r /\ forall x, zlen (r x) = zlen (h x)) \/ ModelNtt.mul_array_h h c n a b = Err SignedOverflow)
  /\ (forall k T f, 0 <= k <= 31 -> Forall (fun p => 2 ^ k <= zlen p) [psi_powers T; scaled_inv_psi_powers T; omega_powers T; omega_powers_rev T;
      inv_omega_powers T; inv_omega_powers_rev T; mixed_powers_rev T; inv_mixed_powers_rev T] ->
  In f [ModelProducts.ntt_product1 (2 ^ k) T;
     ModelProducts.ntt_product2 (2 ^ k) T;
     ModelProducts.ntt_product3 (2 ^ k) T;
     ModelProducts.ntt_product4 (2 ^ k) T;
     ModelProducts.ntt_product5 (2 ^ k) T] ->
  forall h c a b, 2 ^ k <= zlen (h c) -> 2 ^ k <= zlen (h a) -> 2 ^ k <= zlen (h b) ->
    (exists r, f h c a b = Ok r /\ forall x, zlen (r x) = zlen (h x)) \/ f h c a b = Err SignedOverflow).
Proof.
  split; [|split; [|split; [|split]]].
  - intros f HI k a p Hk La Lp. in_cases HI.
    + apply out_ov, s_ntt_ct_rev2std; [exact Hk|exact La|reflexivity|exact Lp].
    + apply out_ov, s_ntt_ct_std2rev; [exact Hk|exact La|reflexivity|exact Lp].
    + apply out_ov, s_ntt_gs_rev2std; [exact Hk|exact La|reflexivity|exact Lp].
    + apply out_ov, s_ntt_gs_std2rev; [exact Hk|exact La|reflexivity|exact Lp].
    + apply out_ov, s_mulntt_ct_rev2std; [exact Hk|exact La|reflexivity|exact Lp].
    + apply out_ov, s_mulntt_ct_std2rev; [exact Hk|exact La|reflexivity|exact Lp].
    + apply out_ov, s_nttmul_gs_rev2std; [exact Hk|exact La|reflexivity|exact Lp].
    + apply out_ov, s_nttmul_gs_std2rev; [exact Hk|exact La|reflexivity|exact Lp].
    + apply out_ov, s_ntt_ct_rev2std_v1; [exact Hk|exact La|reflexivity|exact Lp].
  - intros n a p Hn La Lp. apply out_ov, s_mul_array16; [exact Hn|exact La|reflexivity|exact Lp].
  - intros n a c Hn La. apply out_ov, s_scalar_mul_array; [exact Hn|exact La|reflexivity].
  - intros n h c a b Hn Lc La Lb. apply out_ov. apply (s_mul_array_h (fun x => zlen (h x))); [exact Hn|intros x; reflexivity|assumption..].
  - intros k T f Hk HT HI h c a b Lc La Lb. apply out_ov.
    apply (products_default k T f (fun x => zlen (h x)) Hk HT HI h c a b); [intros x; reflexivity|assumption..].
Qed.

Lemma naive_stays_in_bounds_L :
(forall f, In f
    [ModelNaive.ntt_ct_rev2std_naive;
     ModelNaive.ntt_ct_std2rev_naive;
     ModelNaive.ntt_gs_rev2std_naive;
     ModelNaive.ntt_gs_std2rev_naive;
     ModelNaive.mulntt_ct_rev2std_naive;
     ModelNaive.mulntt_ct_std2rev_naive;
     ModelNaive.nttmul_gs_rev2std_naive;
     ModelNaive.nttmul_gs_std2rev_naive] ->
  forall k a p m, 0 <= k <= 31 -> 2 ^ k <= zlen a -> 2 ^ k <= zlen p ->
    (exists r, f a (2 ^ k) p m = Ok r /\ zlen r = zlen a) \/ f a (2 ^ k) p m = Err SignedOverflow \/ m = 0 /\ f a (2 ^ k) p m = Err DivByZero)
  /\ (forall n a p m, 0 <= n < 2 ^ 32 -> n <= zlen a -> n <= zlen p ->
    (exists r, ModelNaive.mul_array16_naive a n p m = Ok r /\ zlen r = zlen a) \/ ModelNaive.mul_array16_naive a n p m = Err SignedOverflow \/ m = 0 /\ ModelNaive.mul_array16_naive a n p m = Err DivByZero)
  /\ (forall n a c m, 0 <= n < 2 ^ 32 -> n <= zlen a ->
    (exists r, ModelNaive.scalar_mul_array_naive a n c m = Ok r /\ zlen r = zlen a) \/ ModelNaive.scalar_mul_array_naive a n c m = Err SignedOverflow \/ m = 0 /\ ModelNaive.scalar_mul_array_naive a n c m = Err DivByZero)
  /\ (forall n h c a b m, 0 <= n < 2 ^ 32 -> n <= zlen (h c) -> n <= zlen (h a) -> n <= zlen (h b) ->
    (exists r, ModelNaive.mul_array_naive_h h c n a b m = Ok r /\ forall x, zlen (r x) = zlen (h x)) \/ ModelNaive.mul_array_naive_h h c n a b m = Err SignedOverflow \/ m = 0 /\ ModelNaive.mul_array_naive_h h c n a b m = Err DivByZero)
  /\ (forall k T f, 0 <= k <= 31 -> Forall (fun p => 2 ^ k <= zlen p) [psi_powers T; scaled_inv_psi_powers T; omega_powers T; omega_powers_rev T;
      inv_omega_powers T; inv_omega_powers_rev T; mixed_powers_rev T; inv_mixed_powers_rev T] ->
  In f [ModelProducts.naive_product1 (2 ^ k) T;
     ModelProducts.naive_product2 (2 ^ k) T;
     ModelProducts.naive_product3 (2 ^ k) T;
     ModelProducts.naive_product4 (2 ^ k) T;
     ModelProducts.naive_product5 (2 ^ k) T] ->
  forall h c a b, 2 ^ k <= zlen (h c) -> 2 ^ k <= zlen (h a) -> 2 ^ k <= zlen (h b) ->
    (exists r, f h c a b = Ok r /\ forall x, zlen (r x) = zlen (h x)) \/ f h c a b = Err SignedOverflow).
Proof.
  split; [|split; [|split; [|split]]].
  - intros f HI k a p m Hk La Lp. in_cases HI.
    + apply out_div, s_ntt_ct_rev2std_naive; [exact Hk|exact La|reflexivity|exact Lp].
    + apply out_div, s_ntt_ct_std2rev_naive; [exact Hk|exact La|reflexivity|exact Lp].
    + apply out_div, s_ntt_gs_rev2std_naive; [exact Hk|exact La|reflexivity|exact Lp].
    + apply out_div, s_ntt_gs_std2rev_naive; [exact Hk|exact La|reflexivity|exact Lp].
    + apply out_div, s_mulntt_ct_rev2std_naive; [exact Hk|exact La|reflexivity|exact Lp].
    + apply out_div, s_mulntt_ct_std2rev_naive; [exact Hk|exact La|reflexivity|exact Lp].
    + apply out_div, s_nttmul_gs_rev2std_naive; [exact Hk|exact La|reflexivity|exact Lp].
    + apply out_div, s_nttmul_gs_std2rev_naive; [exact Hk|exact La|reflexivity|exact Lp].
  - intros n a p m Hn La Lp. apply out_div, s_mul_array16_naive; [exact Hn|exact La|reflexivity|exact Lp].
  - intros n a c m Hn La. apply out_div, s_scalar_mul_array_naive; [exact Hn|exact La|reflexivity].
  - intros n h c a b m Hn Lc La Lb. apply out_div. apply (s_mul_array_naive_h (fun x => zlen (h x))); [exact Hn|intros x; reflexivity|assumption..].
  - intros k T f Hk HT HI h c a b Lc La Lb.
    destruct (out_div _ _ _ (products_naive k T f (fun x => zlen (h x)) Hk HT HI h c a b (fun x => eq_refl) Lc La Lb)) as [H|[H|[H _]]];
      [left; exact H|right; exact H|discriminate].
Qed.

Lemma red_stays_in_bounds_L :
(forall f, In f
    [ModelRed.ntt_red_ct_rev2std;
     ModelRed.ntt_red_ct_std2rev;
     ModelRed.ntt_red_gs_rev2std;
     ModelRed.ntt_red_gs_std2rev;
     ModelRed.mulntt_red_ct_rev2std;
     ModelRed.mulntt_red_ct_std2rev;
     ModelRed.nttmul_red_gs_rev2std;
     ModelRed.nttmul_red_gs_std2rev] ->
  forall k a p, 0 <= k <= 31 -> 2 ^ k <= zlen a -> 2 ^ k <= zlen p ->
    (exists r, f a (2 ^ k) p = Ok r /\ zlen r = zlen a) \/ f a (2 ^ k) p = Err SignedOverflow \/ f a (2 ^ k) p = Err AssertFail)
  /\ (forall n a p, 0 <= n < 2 ^ 32 -> n <= zlen a -> n <= zlen p ->
    (exists r, ModelRed.mul_reduce_array16 a n p = Ok r /\ zlen r = zlen a) \/ ModelRed.mul_reduce_array16 a n p = Err SignedOverflow \/ ModelRed.mul_reduce_array16 a n p = Err AssertFail)
  /\ (forall n a c, 0 <= n < 2 ^ 32 -> n <= zlen a ->
    (exists r, ModelRed.scalar_mul_reduce_array a n c = Ok r /\ zlen r = zlen a) \/ ModelRed.scalar_mul_reduce_array a n c = Err SignedOverflow \/ ModelRed.scalar_mul_reduce_array a n c = Err AssertFail)
  /\ (forall f, In f [ModelRed.normalize; ModelRed.normalize_inv3; ModelRed.shift_array;
     ModelRed.reduce_array; ModelRed.reduce_array_twice; ModelRed.correct] -> forall n a, 0 <= n < 2 ^ 32 -> n <= zlen a ->
    (exists r, f a n = Ok r /\ zlen r = zlen a) \/ f a n = Err SignedOverflow \/ f a n = Err AssertFail)
  /\ (forall n h c a b, 0 <= n < 2 ^ 32 -> n <= zlen (h c) -> n <= zlen (h a) -> n <= zlen (h b) ->
    (exists r, ModelRed.mul_reduce_array_h h c n a b = Ok r /\ forall x, zlen (r x) = zlen (h x)) \/ ModelRed.mul_reduce_array_h h c n a b = Err SignedOverflow \/ ModelRed.mul_reduce_array_h h c n a b = Err AssertFail)
  /\ (forall k sh T f, 0 <= k <= 31 -> Forall (fun p => 2 ^ k <= zlen p) [red_psi_powers T; red_scaled_inv_psi_powers T; red_scaled_inv_psi_powers_var T; red_omega_powers T;
      red_omega_powers_rev T; red_inv_omega_powers T; red_inv_omega_powers_rev T; red_mixed_powers_rev T; red_inv_mixed_powers_rev T] ->
  In f [ModelProducts.red_product1 sh (2 ^ k) T;
     ModelProducts.red_product2 sh (2 ^ k) T;
     ModelProducts.red_product3 sh (2 ^ k) T;
     ModelProducts.red_product4 sh (2 ^ k) T;
     ModelProducts.red_product5 sh (2 ^ k) T] ->
  forall h c a b, 2 ^ k <= zlen (h c) -> 2 ^ k <= zlen (h a) -> 2 ^ k <= zlen (h b) ->
    (exists r, f h c a b = Ok r /\ forall x, zlen (r x) = zlen (h x)) \/ f h c a b = Err SignedOverflow \/ f h c a b = Err AssertFail).
Proof.
  split; [|split; [|split; [|split; [|split]]]].
  - intros f HI k a p Hk La Lp. in_cases HI.
    + apply out_as, s_ntt_red_ct_rev2std; [exact Hk|exact La|reflexivity|exact Lp].
    + apply out_as, s_ntt_red_ct_std2rev; [exact Hk|exact La|reflexivity|exact Lp].
    + apply out_as, s_ntt_red_gs_rev2std; [exact Hk|exact La|reflexivity|exact Lp].
    + apply out_as, s_ntt_red_gs_std2rev; [exact Hk|exact La|reflexivity|exact Lp].
    + apply out_as, s_mulntt_red_ct_rev2std; [exact Hk|exact La|reflexivity|exact Lp].
    + apply out_as, s_mulntt_red_ct_std2rev; [exact Hk|exact La|reflexivity|exact Lp].
    + apply out_as, s_nttmul_red_gs_rev2std; [exact Hk|exact La|reflexivity|exact Lp].
    + apply out_as, s_nttmul_red_gs_std2rev; [exact Hk|exact La|reflexivity|exact Lp].
  - intros n a p Hn La Lp. apply out_as, s_mul_reduce_array16; [exact Hn|exact La|reflexivity|exact Lp].
  - intros n a c Hn La. apply out_as, s_scalar_mul_reduce_array; [exact Hn|exact La|reflexivity].
  - intros f HI n a Hn La. in_cases HI; apply out_as; [apply s_normalize|apply s_normalize_inv3|apply s_shift_array|apply s_reduce_array|apply s_reduce_array_twice|apply s_correct];
      first [exact Hn|exact La|reflexivity].
  - intros n h c a b Hn Lc La Lb. apply out_as. apply (s_mul_reduce_array_h (fun x => zlen (h x))); [exact Hn|intros x; reflexivity|assumption..].
  - intros k sh T f Hk HT HI h c a b Lc La Lb. apply out_as.
    apply (products_red k sh T f (fun x => zlen (h x)) Hk HT HI h c a b); [intros x; reflexivity|assumption..].
Qed.

Lemma asm_products_stay_in_bounds_L :
(forall n h c a b, 0 < n < 2 ^ 32 -> n mod 16 = 0 -> n <= zlen (h c) -> n <= zlen (h a) -> n <= zlen (h b) ->
    exists r, ModelAvx.mul_reduce_array_asm_h h c n a b = Ok r /\ forall x, zlen (r x) = zlen (h x))
  /\ (forall k sh T f, 4 <= k <= 31 -> Forall (fun p => 2 ^ k <= zlen p) [red_psi_powers T; red_scaled_inv_psi_powers T; red_scaled_inv_psi_powers_var T; red_omega_powers T;
      red_omega_powers_rev T; red_inv_omega_powers T; red_inv_omega_powers_rev T; red_mixed_powers_rev T; red_inv_mixed_powers_rev T] ->
  In f [ModelAvxProd.red_product1_asm sh (2 ^ k) T;
     ModelAvxProd.red_product2_asm sh (2 ^ k) T;
     ModelAvxProd.red_product3_asm sh (2 ^ k) T;
     ModelAvxProd.red_product4_asm sh (2 ^ k) T;
     ModelAvxProd.red_product5_asm sh (2 ^ k) T;
     ModelAvxProd.red1024_product1_asm (2 ^ k) T] ->
  forall h c a b, 2 ^ k <= zlen (h c) -> 2 ^ k <= zlen (h a) -> 2 ^ k <= zlen (h b) ->
    exists r, f h c a b = Ok r /\ forall x, zlen (r x) = zlen (h x)).
Proof.
  split.
  - intros n h c a b Hn H16 Lc La Lb. apply out_no. apply (s_mul_reduce_array_asm_h (fun x => zlen (h x))); [exact Hn|exact H16|intros x; reflexivity|assumption..].
  - intros k sh T f Hk HT HI h c a b Lc La Lb. apply out_no.
    apply (products_asm k sh T f (fun x => zlen (h x)) Hk HT HI h c a b); [intros x; reflexivity|assumption..].
Qed.

Lemma shuffle_stays_in_bounds_L :
forall k a, 0 <= k <= 31 -> 2 ^ k <= zlen a ->
    exists r, ModelNtt.bitrev_shuffle a (2 ^ k) = Ok r /\ zlen r = zlen a.
Proof.
  intros k a Hk La. destruct (split_len (2 ^ k) a) as (b & s & -> & Lb); [pose proof (pow32 k Hk); lia|].
  destruct (Shuffle.bitrev_shuffle_ok k b Hk Lb) as (r & E & Lr & _). exists (r ++ s). split.
  - destruct frame_array_L as (H & _). apply (H ModelNtt.bitrev_shuffle ltac:(inl 0%nat) b (2 ^ k) s). exact E.
  - unfold zlen in *. rewrite !app_length. lia.
Qed.

