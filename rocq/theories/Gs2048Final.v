(** Lemmas behind [PropGs2048]: the Gentleman-Sande transforms of src/ntt_red.c
    on inputs from an interval that need not be centred at zero. *)

From Coq Require Import ZArith List Bool Lia.
From Verif Require Import CSem Spec Loops ModQ RedElem RedBfly RedTransforms RedRange FastArr RedFinal.
From Verif Require ModelRed.
Import ListNotations.
Open Scope Z_scope.

(** Bounds after [m] rounds: from the first round on the multiplied differences
    dominate, and the width is 3 times the previous one plus 12285. *)
Section Width.
Variables lo hi : Z.
Hypothesis Hlh : lo <= hi.
Hypothesis Hl : - lo <= 3 * hi.
Hypothesis Hh : hi <= 24570 - 3 * lo.

Fixpoint width (m : nat) : Z :=
  match m with
  | O => hi - lo
  | S m' => 3 * width m' + 12285
  end.

Lemma width_pow m : 2 * width m = 3 ^ Z.of_nat m * (2 * (hi - lo) + 12285) - 12285.
Proof.
  induction m as [|m IH]; [cbn [width]; change (3 ^ Z.of_nat 0) with 1; lia|].
  cbn [width]. rewrite Nat2Z.inj_succ, Z.pow_succ_r by lia. lia.
Qed.

Lemma width_nonneg m : 0 <= width m.
Proof. induction m as [|m IH]; cbn [width]; lia. Qed.

Lemma mr_width w : mr_hi w - mr_lo w = 3 * w + 12285.
Proof.
  unfold mr_hi, mr_lo.
  replace (6144 * w) with (2048 * (3 * w)) by lia.
  replace (- (2048 * (3 * w))) with (2048 * (- (3 * w))) by lia.
  change 4096 with (2048 * 2). rewrite !Z.div_mul_cancel_l by lia.
  assert (A := Z.div_mod (3 * w) 2 ltac:(lia)). assert (B := Z.mod_pos_bound (3 * w) 2 ltac:(lia)).
  assert (C := Z.div_mod (- (3 * w)) 2 ltac:(lia)). assert (D := Z.mod_pos_bound (- (3 * w)) 2 ltac:(lia)).
  lia.
Qed.

Lemma mr_half w : 3 * w - 1 <= - 2 * mr_lo w <= 3 * w /\ 3 * w + 24570 <= 2 * mr_hi w <= 3 * w + 24571.
Proof.
  unfold mr_hi, mr_lo.
  replace (6144 * w) with (2048 * (3 * w)) by lia.
  replace (- (2048 * (3 * w))) with (2048 * (- (3 * w))) by lia.
  change 4096 with (2048 * 2). rewrite !Z.div_mul_cancel_l by lia.
  assert (A := Z.div_mod (3 * w) 2 ltac:(lia)). assert (B := Z.mod_pos_bound (3 * w) 2 ltac:(lia)).
  assert (C := Z.div_mod (- (3 * w)) 2 ltac:(lia)). assert (D := Z.mod_pos_bound (- (3 * w)) 2 ltac:(lia)).
  lia.
Qed.

Lemma next_dominated l h : l <= h -> - l <= 3 * h -> h <= 24570 - 3 * l ->
  gs_next (l, h) = (mr_lo (h - l), mr_hi (h - l)).
Proof.
  intros A B C. cbn [gs_next]. destruct (mr_half (h - l)) as [D E]. f_equal; lia.
Qed.

Lemma gsb_inv m : let '(l, h) := gsb (lo, hi) m in
  h - l = width m /\ - l <= 3 * h /\ h <= 24570 - 3 * l.
Proof.
  induction m as [|m IH]; [cbn [gsb width]; lia|].
  cbn [gsb width]. destruct (gsb (lo, hi) m) as [l h]. destruct IH as (W & A & B).
  assert (N := width_nonneg m). rewrite next_dominated by lia.
  rewrite W. destruct (mr_half (width m)) as [D E]. assert (F := mr_width (width m)). lia.
Qed.

Lemma gsb_next m : gsb (lo, hi) (S m) = (mr_lo (width m), mr_hi (width m)).
Proof.
  cbn [gsb]. assert (I := gsb_inv m). destruct (gsb (lo, hi) m) as [l h]. destruct I as (W & A & B).
  assert (N := width_nonneg m). rewrite next_dominated by lia. rewrite W. reflexivity.
Qed.

(** What the condition on the input says about every round. *)
Section Fits.
Variable k : Z.
Hypothesis Hk : 0 <= k.
Hypothesis Hfit : 3 ^ k * (2 * (hi - lo) + 12285) <= 2 ^ 33 - 24576.

Lemma width_le m : Z.of_nat m < k -> 3 * (2 * width m + 12285) <= 2 ^ 33 - 24576.
Proof.
  intros Hm. rewrite width_pow.
  assert (3 ^ (Z.of_nat m + 1) <= 3 ^ k) by (apply Z.pow_le_mono_r; lia).
  rewrite Z.pow_add_r in H by lia. change (3 ^ 1) with 3 in H. nia.
Qed.

Lemma check_of_fit m : Z.of_nat m < k -> gs_check (lo, hi) m = true.
Proof.
  intros Hm. assert (W := width_le m Hm). change (2 ^ 33) with 8589934592 in W.
  unfold gs_check. rewrite gsb_next. assert (I := gsb_inv m). destruct (gsb (lo, hi) m) as [l h].
  destruct I as (I & _ & _). rewrite I. destruct (mr_half (width m)) as [D E]. lia.
Qed.

Lemma checks : forallb (gs_check (lo, hi)) (seq 0 (Z.to_nat k)) = true.
Proof. apply forallb_forall. intros m Hm. apply in_seq in Hm. apply check_of_fit. lia. Qed.

Lemma checks9 : forallb (gs_check (lo, hi)) (seq 0 (Z.to_nat (k - 1))) = true.
Proof. apply forallb_forall. intros m Hm. apply in_seq in Hm. apply check_of_fit. lia. Qed.

Lemma checks_last : 0 < k -> forallb (gs_check_last (lo, hi)) (seq 0 (S (Z.to_nat (k - 1)))) = true.
Proof.
  intros K0. apply forallb_forall. intros m Hm. apply in_seq in Hm.
  assert (C := check_of_fit m ltac:(lia)). unfold gs_check, gs_check_last in *.
  cbn [gsb] in C. destruct (gsb (lo, hi) m) as [l h]. cbn [gs_next gs_last] in *. lia.
Qed.

Lemma gs_grow_fit l : 0 <= l < k -> gs_grow (gs_lo (lo, hi) k) (gs_hi (lo, hi) k) l.
Proof. intros. apply gs_grow_ok with (K := Z.to_nat k); [apply checks|lia|lia]. Qed.

Lemma gsp_grow_fit l : 1 <= l < k -> gs_grow (gsp_lo (lo, hi) k) (gsp_hi (lo, hi) k) l.
Proof. intros. apply gsp_grow_ok with (K := Z.to_nat (k - 1)); [apply checks9|lia|lia]. Qed.

Lemma gsp_grow0_fit l : 0 <= l < k -> gs_grow0 (gsp_lo (lo, hi) k) (gsp_hi (lo, hi) k) l.
Proof.
  intros. apply gsp_grow0_ok with (K := Z.to_nat (k - 1)); [apply checks9|apply checks_last; lia|lia|lia].
Qed.

(** The range of the results. *)
Lemma res_gs v : 0 < k -> rng (gs_lo (lo, hi) k) (gs_hi (lo, hi) k) 0 v ->
  - 2 ^ 31 <= v <= 2 ^ 31 - 1 /\ 4 * Z.abs v <= 3 ^ k * (2 * (hi - lo) + 12285) + 24576.
Proof.
  intros K0. unfold rng, gs_lo, gs_hi. rewrite Z.sub_0_r.
  replace (Z.to_nat k) with (S (Z.to_nat (k - 1))) by lia. rewrite gsb_next. cbn [fst snd].
  set (m := Z.to_nat (k - 1)).
  assert (W := width_le m ltac:(subst m; lia)). assert (P := width_pow m).
  assert (E : 3 ^ k = 3 * 3 ^ Z.of_nat m)
    by (rewrite <- Z.pow_succ_r by lia; f_equal; subst m; lia).
  rewrite E. destruct (mr_half (width m)) as [D F]. assert (N := width_nonneg m).
  clearbody m. clear E Hfit Hk K0.
  change (2 ^ 31) with 2147483648. change (2 ^ 33) with 8589934592 in W.
  replace (3 * 3 ^ Z.of_nat m * (2 * (hi - lo) + 12285)) with (6 * width m + 36855) by lia.
  lia.
Qed.

Lemma res_gsp v : 0 < k -> rng (gsp_lo (lo, hi) k) (gsp_hi (lo, hi) k) 0 v ->
  - 2 ^ 31 <= v <= 2 ^ 31 - 1 /\ 4 * Z.abs v <= 3 ^ k * (2 * (hi - lo) + 12285) + 24576.
Proof.
  intros K0 H. apply res_gs; [exact K0|]. unfold rng, gsp_lo, gsp_hi, gs_lo, gs_hi in *.
  change (0 <=? 0) with true in H. cbv iota in H. rewrite Z.sub_0_r.
  replace (Z.to_nat k) with (S (Z.to_nat (k - 1))) by lia. cbn [gsb].
  destruct (gsb (lo, hi) (Z.to_nat (k - 1))) as [l h]. cbn [gs_next gs_last fst snd] in *. lia.
Qed.

End Fits.
End Width.

(** What a call gives: no overflow, the range of the result. *)
Definition returns_within (n B : Z) (m : res (list Z)) : Prop :=
  exists r, m = Ok r /\ zlen r = n /\ all_in (- 2 ^ 31) (2 ^ 31 - 1) r
    /\ forall v, In v r -> 4 * Z.abs v <= B.

Lemma in_at (r : list Z) v : In v r -> exists i, 0 <= i < zlen r /\ at_ r i = v.
Proof.
  intros H. apply In_nth with (d := 0) in H. destruct H as (i & Hi & E).
  exists (Z.of_nat i). unfold zlen, at_. split; [lia|]. rewrite Nat2Z.id. exact E.
Qed.

Lemma returns_of k lo hi m B : safe_result k lo hi m 0 ->
  (forall v, rng lo hi 0 v -> - 2 ^ 31 <= v <= 2 ^ 31 - 1 /\ 4 * Z.abs v <= B) ->
  returns_within (2 ^ k) B m.
Proof.
  intros (r & E & HL & H) HB. exists r. split; [exact E|]. split; [exact HL|]. split.
  - apply all_in_of. intros i Hi. apply HB, H. lia.
  - intros v Hv. apply in_at in Hv. destruct Hv as (i & Hi & <-). apply HB, H. lia.
Qed.

Section Calls.
Variables (k lo hi : Z) (a : list Z).
Hypothesis Hk : 1 <= k <= 31.
Hypothesis Hlh : lo <= hi.
Hypothesis Hl : - lo <= 3 * hi.
Hypothesis Hh : hi <= 24570 - 3 * lo.
Hypothesis Hfit : 3 ^ k * (2 * (hi - lo) + 12285) <= 2 ^ 33 - 24576.
Hypothesis HL : zlen a = 2 ^ k.
Hypothesis Ha : all_in lo hi a.

Let Hk0 : 0 <= k.
Proof. lia. Qed.

Let in_gs i : 0 <= i < 2 ^ k -> rng (gs_lo (lo, hi) k) (gs_hi (lo, hi) k) k (at_ a i).
Proof.
  intros Hi. assert (A := all_in_at lo hi a i Ha ltac:(lia)).
  unfold rng, gs_lo, gs_hi. rewrite Z.sub_diag. cbn. exact A.
Qed.

Let in_gsp i : 0 <= i < 2 ^ k -> rng (gsp_lo (lo, hi) k) (gsp_hi (lo, hi) k) k (at_ a i).
Proof.
  intros Hi. assert (A := in_gs i Hi). unfold rng, gsp_lo, gsp_hi in *.
  replace (k <=? 0) with false by lia. exact A.
Qed.

Let G l (H : 0 <= l < k) := gs_grow_fit lo hi Hlh Hl Hh k Hk0 Hfit l H.
Let Gp l (H : 1 <= l < k) := gsp_grow_fit lo hi Hlh Hl Hh k Hk0 Hfit l H.
Let Gp0 l (H : 0 <= l < k) := gsp_grow0_fit lo hi Hlh Hl Hh k Hk0 Hfit l H.
Let B := 3 ^ k * (2 * (hi - lo) + 12285) + 24576.

Section Safe.
Variable p : list Z.
Hypothesis HLp : zlen p = 2 ^ k.
Hypothesis HP : all_in (-6144) 6144 p.

Let Hp i : 1 <= i < 2 ^ k -> -6144 <= at_ p i <= 6144.
Proof. intros Hi. apply (all_in_at (-6144) 6144); [exact HP|lia]. Qed.

Lemma safe_interval_L :
  returns_within (2 ^ k) B (ModelRed.ntt_red_gs_rev2std a (2 ^ k) p)
  /\ returns_within (2 ^ k) B (ModelRed.ntt_red_gs_std2rev a (2 ^ k) p)
  /\ returns_within (2 ^ k) B (ModelRed.nttmul_red_gs_rev2std a (2 ^ k) p)
  /\ returns_within (2 ^ k) B (ModelRed.nttmul_red_gs_std2rev a (2 ^ k) p).
Proof.
  repeat apply conj.
  - eapply returns_of; [apply safe_gs_rev2std with (lo := gsp_lo (lo, hi) k) (hi := gsp_hi (lo, hi) k); auto; lia|].
    intros v. apply res_gsp; auto; lia.
  - eapply returns_of; [apply safe_gs_std2rev with (lo := gsp_lo (lo, hi) k) (hi := gsp_hi (lo, hi) k); auto; lia|].
    intros v. apply res_gsp; auto; lia.
  - eapply returns_of; [apply safe_mul_gs_rev2std with (lo := gs_lo (lo, hi) k) (hi := gs_hi (lo, hi) k); auto; lia|].
    intros v. apply res_gs; auto; lia.
  - eapply returns_of; [apply safe_mul_gs_std2rev with (lo := gs_lo (lo, hi) k) (hi := gs_hi (lo, hi) k); auto; lia|].
    intros v. apply res_gs; auto; lia.
Qed.
End Safe.

Section Right.
Variable p : list Z.
Hypothesis Hp : forall i, 1 <= i < 2 ^ k -> -6144 <= at_ p i <= 6144.

Let R (f : Z -> Z) (g : Z -> Z) m :=
  exists r : list Z, m = Ok r /\ zlen r = 2 ^ k /\ all_in (- 2 ^ 31) (2 ^ 31 - 1) r
    /\ forall j, 0 <= j < 2 ^ k -> eqQ (at_ r (f j)) (g j).

Lemma interval_gs_rev2std w : eqQ (w ^ (2 ^ (k - 1))) (-1) -> omega_table_rev k w 8193 p ->
  R (fun j => j) (NTT (2 ^ k) w (fun i => at_ a (bitrev k i))) (ModelRed.ntt_red_gs_rev2std a (2 ^ k) p).
Proof.
  intros Hw Ht. apply from_spec with (B := rng (gsp_lo (lo, hi) k) (gsp_hi (lo, hi) k) 0);
    [intros v Hv; apply (res_gsp lo hi) with (k := k); auto; lia|].
  apply ntt_red_gs_rev2std_spec; auto; lia.
Qed.

Lemma interval_gs_std2rev w : eqQ (w ^ (2 ^ (k - 1))) (-1) -> omega_table k w 8193 p ->
  R (bitrev k) (NTT (2 ^ k) w (at_ a)) (ModelRed.ntt_red_gs_std2rev a (2 ^ k) p).
Proof.
  intros Hw Ht. apply from_spec with (B := rng (gsp_lo (lo, hi) k) (gsp_hi (lo, hi) k) 0);
    [intros v Hv; apply (res_gsp lo hi) with (k := k); auto; lia|].
  apply ntt_red_gs_std2rev_spec; auto; lia.
Qed.

Lemma interval_mul_gs_rev2std w : eqQ (w ^ (2 ^ k)) (-1) -> mixed_table_rev k w 8193 p ->
  R (fun j => j) (fun j => w ^ j * NTT (2 ^ k) (w ^ 2) (fun i => at_ a (bitrev k i)) j)
    (ModelRed.nttmul_red_gs_rev2std a (2 ^ k) p).
Proof.
  intros Hw Ht. apply from_spec with (B := rng (gs_lo (lo, hi) k) (gs_hi (lo, hi) k) 0);
    [intros v Hv; apply (res_gs lo hi) with (k := k); auto; lia|].
  apply nttmul_red_gs_rev2std_spec; auto; lia.
Qed.

Lemma interval_mul_gs_std2rev w : eqQ (w ^ (2 ^ k)) (-1) -> mixed_table k w 8193 p ->
  R (bitrev k) (fun j => w ^ j * NTT (2 ^ k) (w ^ 2) (at_ a) j)
    (ModelRed.nttmul_red_gs_std2rev a (2 ^ k) p).
Proof.
  intros Hw Ht. apply from_spec with (B := rng (gs_lo (lo, hi) k) (gs_hi (lo, hi) k) 0);
    [intros v Hv; apply (res_gs lo hi) with (k := k); auto; lia|].
  apply nttmul_red_gs_std2rev_spec; auto; lia.
Qed.
End Right.
End Calls.

(** Inputs 0 .. Q-1, arbitrary constants, up to n = 2048: all eight transforms. *)
Lemma ct_canon : forallb (ct_check 12288) (seq 0 11) = true.
Proof. vm_compute. reflexivity. Qed.
Lemma ct_canon_top : forallb (fun m => ctb 12288 m <=? 1632460035) (seq 0 12) = true.
Proof. vm_compute. reflexivity. Qed.

Lemma canonical_2048_L : forall k a p, 1 <= k <= 11 -> zlen a = 2 ^ k -> zlen p = 2 ^ k ->
  all_in 0 12288 a -> all_in (-6144) 6144 p ->
  forall f, In f [ModelRed.ntt_red_ct_rev2std; ModelRed.ntt_red_ct_std2rev;
                  ModelRed.ntt_red_gs_rev2std; ModelRed.ntt_red_gs_std2rev;
                  ModelRed.mulntt_red_ct_rev2std; ModelRed.mulntt_red_ct_std2rev;
                  ModelRed.nttmul_red_gs_rev2std; ModelRed.nttmul_red_gs_std2rev] ->
  exists r, f a (2 ^ k) p = Ok r /\ zlen r = 2 ^ k /\ all_in (-1632460035) 1632460035 r.
Proof.
  intros k a p Hk HL HLp Ha HP.
  assert (Hp : forall i, 1 <= i < 2 ^ k -> -6144 <= at_ p i <= 6144)
    by (intros i Hi; apply (all_in_at (-6144) 6144); [exact HP|lia]).
  assert (T : 3 ^ k <= 3 ^ 11) by (apply Z.pow_le_mono_r; lia). change (3 ^ 11) with 177147 in T.
  assert (S := safe_interval_L k 0 12288 a ltac:(lia) ltac:(lia) ltac:(lia) ltac:(lia)
    ltac:(change (2 ^ 33) with 8589934592; lia) HL Ha p HLp HP).
  assert (GS : forall m, returns_within (2 ^ k) (3 ^ k * (2 * (12288 - 0) + 12285) + 24576) m ->
    exists r, m = Ok r /\ zlen r = 2 ^ k /\ all_in (-1632460035) 1632460035 r).
  { intros m (r & E & HLr & _ & HB). exists r. split; [exact E|]. split; [exact HLr|].
    intros v Hv. apply HB in Hv. lia. }
  assert (G : forall l, 0 <= l < k -> ct_grow (ct_lo 12288) (ct_hi 12288) l)
    by (intros l Hl; apply ct_grow_ok with (K := 11%nat); [apply ct_canon|lia]).
  assert (A : forall i, 0 <= i < 2 ^ k -> rng (ct_lo 12288) (ct_hi 12288) 0 (at_ a i)).
  { intros i Hi. assert (X := all_in_at 0 12288 a i Ha ltac:(lia)).
    unfold rng, ct_lo, ct_hi. change (ctb 12288 (Z.to_nat 0)) with 12288. lia. }
  assert (CT : forall m, safe_result k (ct_lo 12288) (ct_hi 12288) m k ->
    exists r, m = Ok r /\ zlen r = 2 ^ k /\ all_in (-1632460035) 1632460035 r).
  { intros m (r & E & HLr & HB). exists r. split; [exact E|]. split; [exact HLr|].
    apply all_in_of. intros i Hi. assert (X := HB i ltac:(lia)). unfold rng, ct_lo, ct_hi in X.
    assert (Y := check_seq _ 12 ct_canon_top (Z.to_nat k) ltac:(lia)). apply Z.leb_le in Y. lia. }
  intros f [<-|[<-|[<-|[<-|[<-|[<-|[<-|[<-|[]]]]]]]]].
  - apply CT, safe_ct_rev2std; auto; lia.
  - apply CT, safe_ct_std2rev; auto; lia.
  - apply GS, S.
  - apply GS, S.
  - apply CT, safe_mul_ct_rev2std; auto; lia.
  - apply CT, safe_mul_ct_std2rev; auto; lia.
  - apply GS, S.
  - apply GS, S.
Qed.
