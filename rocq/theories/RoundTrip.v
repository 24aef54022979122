(** Forward followed by inverse transform. *)

From Coq Require Import ZArith List Bool Lia Setoid Morphisms.
From Verif Require Import CSem Spec Loops ModQ Conv TableSpec ModelGen ModelProducts ProdGen
  NttFinal NaiveFinal RedFinal ElemFinal.
From Verif Require ModelRed.
Import ListNotations.
Open Scope Z_scope.

Section Trip.
Variables (k w wi : Z).
Hypothesis Hk : 0 <= k.
Hypothesis Hw : 0 < k -> eqQ (w ^ (2 ^ (k - 1))) (-1).
Hypothesis Hinv : eqQ (w * wi) 1.

(** Transform of [pre i * a[i]] from standard to bit-reversed order, scaled by [post j],
    and from bit-reversed to standard order. *)
Definition s2r (lo hi lo' hi' : Z) (w : Z) (pre post : Z -> Z) (F : list Z -> res (list Z)) : Prop :=
  forall a, zlen a = 2 ^ k -> all_in lo hi a ->
  exists r, F a = Ok r /\ zlen r = 2 ^ k /\ all_in lo' hi' r
    /\ forall j, 0 <= j < 2 ^ k ->
         eqQ (at_ r (bitrev k j)) (post j * NTT (2 ^ k) w (fun i => at_ a i * pre i) j).
Definition r2s (lo hi lo' hi' : Z) (w : Z) (pre post : Z -> Z) (F : list Z -> res (list Z)) : Prop :=
  forall a, zlen a = 2 ^ k -> all_in lo hi a ->
  exists r, F a = Ok r /\ zlen r = 2 ^ k /\ all_in lo' hi' r
    /\ forall j, 0 <= j < 2 ^ k ->
         eqQ (at_ r j) (post j * NTT (2 ^ k) w (fun i => at_ a (bitrev k i) * pre i) j).
(** A pointwise map in the middle. *)
Definition scales (lo hi lo' hi' s : Z) (M : list Z -> res (list Z)) : Prop :=
  forall a, zlen a = 2 ^ k -> all_in lo hi a ->
  exists r, M a = Ok r /\ zlen r = 2 ^ k /\ all_in lo' hi' r
    /\ forall j, 0 <= j < 2 ^ k -> eqQ (at_ r j) (s * at_ a j).

Lemma scales_id lo hi : scales lo hi lo hi 1 (fun a => Ok a).
Proof.
  intros a HL Ha. exists a. split; [reflexivity|]. split; [exact HL|]. split; [exact Ha|].
  intros j _. rewrite Z.mul_1_l. reflexivity.
Qed.

Variables (lo hi lo1 hi1 lo2 hi2 lo3 hi3 s : Z) (pre post : Z -> Z) (F M G : list Z -> res (list Z)).
Hypothesis HM : scales lo1 hi1 lo2 hi2 s M.
Hypothesis Hpp : forall i, 0 <= i < 2 ^ k -> eqQ (pre i * post i) 1.

Let core x i : 0 <= i < 2 ^ k ->
  eqQ (post i * NTT (2 ^ k) wi (fun j => s * NTT (2 ^ k) w (fun i => x i * pre i) j) i) (s * (2 ^ k * x i)).
Proof.
  intros Hi.
  transitivity (post i * (s * NTT (2 ^ k) wi (fun j => NTT (2 ^ k) w (fun i => x i * pre i) j) i)).
  - apply eqQ_mul; [reflexivity|]. unfold NTT at 1 3. rewrite <- Sum_mul_l. apply Sum_extQ.
    intros j _. qring.
  - rewrite (ntt_inverse k w wi Hk Hw Hinv (fun i => x i * pre i) i Hi).
    transitivity (s * (2 ^ k * x i) * (pre i * post i)); [qring|].
    rewrite Hpp by exact Hi. qring.
Qed.

Lemma trip_s2r : s2r lo hi lo1 hi1 w pre (fun _ => 1) F -> r2s lo2 hi2 lo3 hi3 wi (fun _ => 1) post G ->
  forall a, zlen a = 2 ^ k -> all_in lo hi a ->
  exists r, (do x <- F a; do y <- M x; G y) = Ok r /\ zlen r = 2 ^ k /\ all_in lo3 hi3 r
    /\ forall i, 0 <= i < 2 ^ k -> eqQ (at_ r i) (s * (2 ^ k * at_ a i)).
Proof.
  intros HF HG a HL Ha.
  destruct (HF a HL Ha) as (x & -> & Lx & Ix & Ex). cbn [bind].
  destruct (HM x Lx Ix) as (y & -> & Ly & Iy & Ey). cbn [bind].
  destruct (HG y Ly Iy) as (r & -> & Lr & Ir & Er). exists r.
  split; [reflexivity|]. split; [exact Lr|]. split; [exact Ir|]. intros i Hi.
  rewrite Er by exact Hi.
  rewrite (NTT_extQ (2 ^ k) wi _ (fun j => s * NTT (2 ^ k) w (fun i => at_ a i * pre i) j)).
  - apply core, Hi.
  - intros j Hj. rewrite Z.mul_1_r. rewrite Ey by (apply bitrev_range; exact Hk).
    rewrite Ex by exact Hj. qring.
Qed.

Lemma trip_r2s : r2s lo hi lo1 hi1 w pre (fun _ => 1) F -> s2r lo2 hi2 lo3 hi3 wi (fun _ => 1) post G ->
  forall a, zlen a = 2 ^ k -> all_in lo hi a ->
  exists r, (do x <- F a; do y <- M x; G y) = Ok r /\ zlen r = 2 ^ k /\ all_in lo3 hi3 r
    /\ forall i, 0 <= i < 2 ^ k -> eqQ (at_ r i) (s * (2 ^ k * at_ a i)).
Proof.
  intros HF HG a HL Ha.
  destruct (HF a HL Ha) as (x & -> & Lx & Ix & Ex). cbn [bind].
  destruct (HM x Lx Ix) as (y & -> & Ly & Iy & Ey). cbn [bind].
  destruct (HG y Ly Iy) as (r & -> & Lr & Ir & Er). exists r.
  split; [reflexivity|]. split; [exact Lr|]. split; [exact Ir|]. intros i Hi.
  assert (HB := bitrev_range k i Hk). assert (HE := Er (bitrev k i) HB).
  rewrite bitrev_invol in HE by (try exact Hi; exact Hk). rewrite HE.
  rewrite (NTT_extQ (2 ^ k) wi _ (fun j => s * NTT (2 ^ k) w (fun i => at_ a (bitrev k i) * pre i) j)).
  - rewrite (core (fun i => at_ a (bitrev k i)) (bitrev k i) HB).
    rewrite bitrev_invol by (try exact Hi; exact Hk). reflexivity.
  - intros j Hj. rewrite Z.mul_1_r. rewrite Ey by exact Hj. rewrite Ex by exact Hj. qring.
Qed.
End Trip.

Lemma ntt_post1 n w x j : eqQ (NTT n w x j) (1 * NTT n w (fun i => x i * 1) j).
Proof. rewrite Z.mul_1_l. apply NTT_extQ. intros i _. rewrite Z.mul_1_r. reflexivity. Qed.

Lemma pp1 k : forall i, 0 <= i < 2 ^ k -> eqQ (1 * 1) 1.
Proof. reflexivity. Qed.
Lemma pp_psi k psi psii : eqQ (psi * psii) 1 -> forall i, 0 <= i < 2 ^ k -> eqQ (psi ^ i * psii ^ i) 1.
Proof. intros H i Hi. rewrite <- Z.pow_mul_l. rewrite H. rewrite Z.pow_1_l by lia. reflexivity. Qed.

Lemma entry1 lo hi p n : all_in lo hi p -> zlen p = n -> forall i, 1 <= i < n -> lo <= at_ p i <= hi.
Proof. intros H HL i Hi. apply all_in_at; [exact H|lia]. Qed.

Section Default.
Variables (k psi : Z) (T : tables).
Hypothesis Hk : 0 <= k <= 31.
Hypothesis Hpsi : eqQ (psi ^ (2 ^ k)) (-1).
Hypothesis HT : tables_ok k psi T.
Let psii := t_inv_psi T.
Let Hk0 : 0 <= k := proj1 Hk.
Let Hpi : eqQ (psi * psii) 1 := proj1 (ok_inv_psi _ _ _ HT).
Let Hw : eqQ (t_omega T) (psi ^ 2) := proj1 (ok_omega _ _ _ HT).
Let Hwi : eqQ (t_inv_omega T) (psii ^ 2).
Proof.
  exact (inv_sq psi psii _ _ Hw Hpi (proj1 (ok_inv_omega _ _ _ HT))).
Qed.
Let Rw : 0 < k -> eqQ ((psi ^ 2) ^ (2 ^ (k - 1))) (-1) .
Proof. apply omega_root; assumption. Qed.
Let Rpi : eqQ (psii ^ (2 ^ k)) (-1) .
Proof. apply (psi_inv_root k psi psii); assumption. Qed.
Let Rwi : 0 < k -> eqQ ((psii ^ 2) ^ (2 ^ (k - 1))) (-1) .
Proof. apply omega_root; assumption. Qed.
Let Oinv : eqQ (psi ^ 2 * psii ^ 2) 1 .
Proof. apply omega_inv; assumption. Qed.

Lemma t_n_ct_std2rev : s2r k 0 (Q - 1) 0 (Q - 1) (psi ^ 2) (fun _ => 1) (fun _ => 1) (n_ct_std2rev (2 ^ k) T).
Proof.
  intros a HL Ha. destruct (ok_omega_powers_rev _ _ _ HT) as [H1 H2].
  assert (H3 := entry1 _ _ _ _ H2 (proj1 H1)).
  apply (omega_table_rev_root _ _ _ _ _ Hw) in H1.
  destruct (ntt_ct_std2rev_correct_L k (psi ^ 2) a _ Hk Rw H1 H3 HL Ha) as (r & E & L & I & R).
  exists r. split; [exact E|]. split; [exact L|]. split; [exact I|]. intros j Hj. rewrite R by exact Hj. apply ntt_post1.
Qed.

Lemma t_n_ct_rev2std : r2s k 0 (Q - 1) 0 (Q - 1) (psi ^ 2) (fun _ => 1) (fun _ => 1) (n_ct_rev2std (2 ^ k) T).
Proof.
  intros a HL Ha. destruct (ok_omega_powers _ _ _ HT) as [H1 H2].
  assert (H3 := entry1 _ _ _ _ H2 (proj1 H1)).
  apply (omega_table_root _ _ _ _ _ Hw) in H1.
  destruct (ntt_ct_rev2std_correct_L k (psi ^ 2) a _ Hk Rw H1 H3 HL Ha) as (r & E & L & I & R).
  exists r. split; [exact E|]. split; [exact L|]. split; [exact I|]. intros j Hj. rewrite R by exact Hj. apply ntt_post1.
Qed.

Lemma t_n_gs_std2rev : s2r k 0 (Q - 1) 0 (Q - 1) (psi ^ 2) (fun _ => 1) (fun _ => 1) (n_gs_std2rev (2 ^ k) T).
Proof.
  intros a HL Ha. destruct (ok_omega_powers _ _ _ HT) as [H1 H2].
  assert (H3 := entry1 _ _ _ _ H2 (proj1 H1)).
  apply (omega_table_root _ _ _ _ _ Hw) in H1.
  destruct (ntt_gs_std2rev_correct_L k (psi ^ 2) a _ Hk Rw H1 H3 HL Ha) as (r & E & L & I & R).
  exists r. split; [exact E|]. split; [exact L|]. split; [exact I|]. intros j Hj. rewrite R by exact Hj. apply ntt_post1.
Qed.

Lemma t_n_gs_rev2std : r2s k 0 (Q - 1) 0 (Q - 1) (psi ^ 2) (fun _ => 1) (fun _ => 1) (n_gs_rev2std (2 ^ k) T).
Proof.
  intros a HL Ha. destruct (ok_omega_powers_rev _ _ _ HT) as [H1 H2].
  assert (H3 := entry1 _ _ _ _ H2 (proj1 H1)).
  apply (omega_table_rev_root _ _ _ _ _ Hw) in H1.
  destruct (ntt_gs_rev2std_correct_L k (psi ^ 2) a _ Hk Rw H1 H3 HL Ha) as (r & E & L & I & R).
  exists r. split; [exact E|]. split; [exact L|]. split; [exact I|]. intros j Hj. rewrite R by exact Hj. apply ntt_post1.
Qed.

Lemma t_n_intt_ct_std2rev : s2r k 0 (Q - 1) 0 (Q - 1) (psii ^ 2) (fun _ => 1) (fun _ => 1) (n_intt_ct_std2rev (2 ^ k) T).
Proof.
  intros a HL Ha. destruct (ok_inv_omega_powers_rev _ _ _ HT) as [H1 H2].
  assert (H3 := entry1 _ _ _ _ H2 (proj1 H1)).
  apply (omega_table_rev_root _ _ _ _ _ Hwi) in H1.
  destruct (ntt_ct_std2rev_correct_L k (psii ^ 2) a _ Hk Rwi H1 H3 HL Ha) as (r & E & L & I & R).
  exists r. split; [exact E|]. split; [exact L|]. split; [exact I|]. intros j Hj. rewrite R by exact Hj. apply ntt_post1.
Qed.

Lemma t_n_intt_ct_rev2std : r2s k 0 (Q - 1) 0 (Q - 1) (psii ^ 2) (fun _ => 1) (fun _ => 1) (n_intt_ct_rev2std (2 ^ k) T).
Proof.
  intros a HL Ha. destruct (ok_inv_omega_powers _ _ _ HT) as [H1 H2].
  assert (H3 := entry1 _ _ _ _ H2 (proj1 H1)).
  apply (omega_table_root _ _ _ _ _ Hwi) in H1.
  destruct (ntt_ct_rev2std_correct_L k (psii ^ 2) a _ Hk Rwi H1 H3 HL Ha) as (r & E & L & I & R).
  exists r. split; [exact E|]. split; [exact L|]. split; [exact I|]. intros j Hj. rewrite R by exact Hj. apply ntt_post1.
Qed.

Lemma t_n_intt_gs_std2rev : s2r k 0 (Q - 1) 0 (Q - 1) (psii ^ 2) (fun _ => 1) (fun _ => 1) (n_intt_gs_std2rev (2 ^ k) T).
Proof.
  intros a HL Ha. destruct (ok_inv_omega_powers _ _ _ HT) as [H1 H2].
  assert (H3 := entry1 _ _ _ _ H2 (proj1 H1)).
  apply (omega_table_root _ _ _ _ _ Hwi) in H1.
  destruct (ntt_gs_std2rev_correct_L k (psii ^ 2) a _ Hk Rwi H1 H3 HL Ha) as (r & E & L & I & R).
  exists r. split; [exact E|]. split; [exact L|]. split; [exact I|]. intros j Hj. rewrite R by exact Hj. apply ntt_post1.
Qed.

Lemma t_n_intt_gs_rev2std : r2s k 0 (Q - 1) 0 (Q - 1) (psii ^ 2) (fun _ => 1) (fun _ => 1) (n_intt_gs_rev2std (2 ^ k) T).
Proof.
  intros a HL Ha. destruct (ok_inv_omega_powers_rev _ _ _ HT) as [H1 H2].
  assert (H3 := entry1 _ _ _ _ H2 (proj1 H1)).
  apply (omega_table_rev_root _ _ _ _ _ Hwi) in H1.
  destruct (ntt_gs_rev2std_correct_L k (psii ^ 2) a _ Hk Rwi H1 H3 HL Ha) as (r & E & L & I & R).
  exists r. split; [exact E|]. split; [exact L|]. split; [exact I|]. intros j Hj. rewrite R by exact Hj. apply ntt_post1.
Qed.

Lemma t_n_mulntt_ct_std2rev : s2r k 0 (Q - 1) 0 (Q - 1) (psi ^ 2) (fun i => psi ^ i) (fun _ => 1) (n_mulntt_ct_std2rev (2 ^ k) T).
Proof.
  intros a HL Ha. destruct (ok_mixed_rev _ _ _ HT) as [H1 H2].
  assert (H3 := entry1 _ _ _ _ H2 (proj1 H1)).
  destruct (mulntt_ct_std2rev_correct_L k psi a _ Hk Hpsi H1 H3 HL Ha) as (r & E & L & I & R).
  exists r. split; [exact E|]. split; [exact L|]. split; [exact I|]. intros j Hj. rewrite R by exact Hj.
  rewrite Z.mul_1_l. reflexivity.
Qed.

Lemma t_n_inttmul_gs_std2rev : s2r k 0 (Q - 1) 0 (Q - 1) (psii ^ 2) (fun _ => 1) (fun i => psii ^ i) (n_inttmul_gs_std2rev (2 ^ k) T).
Proof.
  intros a HL Ha. destruct (ok_inv_mixed _ _ _ HT) as [H1 H2].
  assert (H3 := entry1 _ _ _ _ H2 (proj1 H1)).
  destruct (nttmul_gs_std2rev_correct_L k psii a _ Hk Rpi H1 H3 HL Ha) as (r & E & L & I & R).
  exists r. split; [exact E|]. split; [exact L|]. split; [exact I|]. intros j Hj. rewrite R by exact Hj.
  apply eqQ_mul; [reflexivity|]. apply NTT_extQ. intros i _. rewrite Z.mul_1_r. reflexivity.
Qed.

Lemma t_n_mulntt_ct_rev2std : r2s k 0 (Q - 1) 0 (Q - 1) (psi ^ 2) (fun i => psi ^ i) (fun _ => 1) (n_mulntt_ct_rev2std (2 ^ k) T).
Proof.
  intros a HL Ha. destruct (ok_mixed _ _ _ HT) as [H1 H2].
  assert (H3 := entry1 _ _ _ _ H2 (proj1 H1)).
  destruct (mulntt_ct_rev2std_correct_L k psi a _ Hk Hpsi H1 H3 HL Ha) as (r & E & L & I & R).
  exists r. split; [exact E|]. split; [exact L|]. split; [exact I|]. intros j Hj. rewrite R by exact Hj.
  rewrite Z.mul_1_l. reflexivity.
Qed.

Lemma t_n_inttmul_gs_rev2std : r2s k 0 (Q - 1) 0 (Q - 1) (psii ^ 2) (fun _ => 1) (fun i => psii ^ i) (n_inttmul_gs_rev2std (2 ^ k) T).
Proof.
  intros a HL Ha. destruct (ok_inv_mixed_rev _ _ _ HT) as [H1 H2].
  assert (H3 := entry1 _ _ _ _ H2 (proj1 H1)).
  destruct (nttmul_gs_rev2std_correct_L k psii a _ Hk Rpi H1 H3 HL Ha) as (r & E & L & I & R).
  exists r. split; [exact E|]. split; [exact L|]. split; [exact I|]. intros j Hj. rewrite R by exact Hj.
  apply eqQ_mul; [reflexivity|]. apply NTT_extQ. intros i _. rewrite Z.mul_1_r. reflexivity.
Qed.

Definition n_pairs : list ((list Z -> res (list Z)) * (list Z -> res (list Z))) :=
  let n := 2 ^ k in
  [(n_ct_std2rev n T, n_intt_ct_rev2std n T); (n_ct_std2rev n T, n_intt_gs_rev2std n T);
   (n_gs_std2rev n T, n_intt_ct_rev2std n T); (n_gs_std2rev n T, n_intt_gs_rev2std n T);
   (n_ct_rev2std n T, n_intt_ct_std2rev n T); (n_ct_rev2std n T, n_intt_gs_std2rev n T);
   (n_gs_rev2std n T, n_intt_ct_std2rev n T); (n_gs_rev2std n T, n_intt_gs_std2rev n T);
   (n_mulntt_ct_std2rev n T, n_inttmul_gs_rev2std n T);
   (n_mulntt_ct_rev2std n T, n_inttmul_gs_std2rev n T)].

Lemma n_round F G : In (F, G) n_pairs -> forall a, zlen a = 2 ^ k -> all_in 0 (Q - 1) a ->
  exists r, (do x <- F a; do y <- (fun x => Ok x) x; G y) = Ok r /\ zlen r = 2 ^ k /\ all_in 0 (Q - 1) r
    /\ forall i, 0 <= i < 2 ^ k -> eqQ (at_ r i) (1 * (2 ^ k * at_ a i)).
Proof.
  intros HIn.
  assert (HM := scales_id k 0 (Q - 1)).
  Local Ltac one := match goal with H : (_, _) = (_, _) |- _ => injection H as <- <- end.
  cbn [n_pairs In] in HIn. destruct HIn as [H|[H|[H|[H|[H|[H|[H|[H|[H|[H|[]]]]]]]]]]]; one.
  - exact (trip_s2r k (psi ^ 2) (psii ^ 2) Hk0 Rw Oinv _ _ _ _ _ _ _ _ _ _ _ _ _ _ HM (pp1 k) t_n_ct_std2rev t_n_intt_ct_rev2std).
  - exact (trip_s2r k (psi ^ 2) (psii ^ 2) Hk0 Rw Oinv _ _ _ _ _ _ _ _ _ _ _ _ _ _ HM (pp1 k) t_n_ct_std2rev t_n_intt_gs_rev2std).
  - exact (trip_s2r k (psi ^ 2) (psii ^ 2) Hk0 Rw Oinv _ _ _ _ _ _ _ _ _ _ _ _ _ _ HM (pp1 k) t_n_gs_std2rev t_n_intt_ct_rev2std).
  - exact (trip_s2r k (psi ^ 2) (psii ^ 2) Hk0 Rw Oinv _ _ _ _ _ _ _ _ _ _ _ _ _ _ HM (pp1 k) t_n_gs_std2rev t_n_intt_gs_rev2std).
  - exact (trip_r2s k (psi ^ 2) (psii ^ 2) Hk0 Rw Oinv _ _ _ _ _ _ _ _ _ _ _ _ _ _ HM (pp1 k) t_n_ct_rev2std t_n_intt_ct_std2rev).
  - exact (trip_r2s k (psi ^ 2) (psii ^ 2) Hk0 Rw Oinv _ _ _ _ _ _ _ _ _ _ _ _ _ _ HM (pp1 k) t_n_ct_rev2std t_n_intt_gs_std2rev).
  - exact (trip_r2s k (psi ^ 2) (psii ^ 2) Hk0 Rw Oinv _ _ _ _ _ _ _ _ _ _ _ _ _ _ HM (pp1 k) t_n_gs_rev2std t_n_intt_ct_std2rev).
  - exact (trip_r2s k (psi ^ 2) (psii ^ 2) Hk0 Rw Oinv _ _ _ _ _ _ _ _ _ _ _ _ _ _ HM (pp1 k) t_n_gs_rev2std t_n_intt_gs_std2rev).
  - exact (trip_s2r k (psi ^ 2) (psii ^ 2) Hk0 Rw Oinv _ _ _ _ _ _ _ _ _ _ _ _ _ _ HM (pp_psi k psi psii Hpi) t_n_mulntt_ct_std2rev t_n_inttmul_gs_rev2std).
  - exact (trip_r2s k (psi ^ 2) (psii ^ 2) Hk0 Rw Oinv _ _ _ _ _ _ _ _ _ _ _ _ _ _ HM (pp_psi k psi psii Hpi) t_n_mulntt_ct_rev2std t_n_inttmul_gs_std2rev).
Qed.
End Default.

Section Naive.
Variables (k psi : Z) (T : tables).
Hypothesis Hk : 0 <= k <= 31.
Hypothesis Hpsi : eqQ (psi ^ (2 ^ k)) (-1).
Hypothesis HT : tables_ok k psi T.
Let psii := t_inv_psi T.
Let Hk0 : 0 <= k := proj1 Hk.
Let Hpi : eqQ (psi * psii) 1 := proj1 (ok_inv_psi _ _ _ HT).
Let Hw : eqQ (t_omega T) (psi ^ 2) := proj1 (ok_omega _ _ _ HT).
Let Hwi : eqQ (t_inv_omega T) (psii ^ 2).
Proof.
  exact (inv_sq psi psii _ _ Hw Hpi (proj1 (ok_inv_omega _ _ _ HT))).
Qed.
Let Rw : 0 < k -> eqQ ((psi ^ 2) ^ (2 ^ (k - 1))) (-1) .
Proof. apply omega_root; assumption. Qed.
Let Rpi : eqQ (psii ^ (2 ^ k)) (-1) .
Proof. apply (psi_inv_root k psi psii); assumption. Qed.
Let Rwi : 0 < k -> eqQ ((psii ^ 2) ^ (2 ^ (k - 1))) (-1) .
Proof. apply omega_root; assumption. Qed.
Let Oinv : eqQ (psi ^ 2 * psii ^ 2) 1 .
Proof. apply omega_inv; assumption. Qed.

Lemma t_v_ct_std2rev : s2r k (- Q + 1) (Q - 1) (- Q + 1) (Q - 1) (psi ^ 2) (fun _ => 1) (fun _ => 1) (v_ct_std2rev (2 ^ k) T).
Proof.
  intros a HL Ha. destruct (ok_omega_powers_rev _ _ _ HT) as [H1 H2].
  assert (H3 := entry1 _ _ _ _ H2 (proj1 H1)).
  apply (omega_table_rev_root _ _ _ _ _ Hw) in H1.
  destruct (ntt_ct_std2rev_naive_correct_L k (psi ^ 2) a _ Hk Rw H1 H3 HL Ha) as (r & E & L & I & R).
  exists r. split; [exact E|]. split; [exact L|]. split; [exact I|]. intros j Hj. rewrite R by exact Hj. apply ntt_post1.
Qed.

Lemma t_v_ct_rev2std : r2s k (- Q + 1) (Q - 1) (- Q + 1) (Q - 1) (psi ^ 2) (fun _ => 1) (fun _ => 1) (v_ct_rev2std (2 ^ k) T).
Proof.
  intros a HL Ha. destruct (ok_omega_powers _ _ _ HT) as [H1 H2].
  assert (H3 := entry1 _ _ _ _ H2 (proj1 H1)).
  apply (omega_table_root _ _ _ _ _ Hw) in H1.
  destruct (ntt_ct_rev2std_naive_correct_L k (psi ^ 2) a _ Hk Rw H1 H3 HL Ha) as (r & E & L & I & R).
  exists r. split; [exact E|]. split; [exact L|]. split; [exact I|]. intros j Hj. rewrite R by exact Hj. apply ntt_post1.
Qed.

Lemma t_v_gs_std2rev : s2r k (- Q + 1) (Q - 1) (- Q + 1) (Q - 1) (psi ^ 2) (fun _ => 1) (fun _ => 1) (v_gs_std2rev (2 ^ k) T).
Proof.
  intros a HL Ha. destruct (ok_omega_powers _ _ _ HT) as [H1 H2].
  assert (H3 := entry1 _ _ _ _ H2 (proj1 H1)).
  apply (omega_table_root _ _ _ _ _ Hw) in H1.
  destruct (ntt_gs_std2rev_naive_correct_L k (psi ^ 2) a _ Hk Rw H1 H3 HL Ha) as (r & E & L & I & R).
  exists r. split; [exact E|]. split; [exact L|]. split; [exact I|]. intros j Hj. rewrite R by exact Hj. apply ntt_post1.
Qed.

Lemma t_v_gs_rev2std : r2s k (- Q + 1) (Q - 1) (- Q + 1) (Q - 1) (psi ^ 2) (fun _ => 1) (fun _ => 1) (v_gs_rev2std (2 ^ k) T).
Proof.
  intros a HL Ha. destruct (ok_omega_powers_rev _ _ _ HT) as [H1 H2].
  assert (H3 := entry1 _ _ _ _ H2 (proj1 H1)).
  apply (omega_table_rev_root _ _ _ _ _ Hw) in H1.
  destruct (ntt_gs_rev2std_naive_correct_L k (psi ^ 2) a _ Hk Rw H1 H3 HL Ha) as (r & E & L & I & R).
  exists r. split; [exact E|]. split; [exact L|]. split; [exact I|]. intros j Hj. rewrite R by exact Hj. apply ntt_post1.
Qed.

Lemma t_v_intt_ct_std2rev : s2r k (- Q + 1) (Q - 1) (- Q + 1) (Q - 1) (psii ^ 2) (fun _ => 1) (fun _ => 1) (v_intt_ct_std2rev (2 ^ k) T).
Proof.
  intros a HL Ha. destruct (ok_inv_omega_powers_rev _ _ _ HT) as [H1 H2].
  assert (H3 := entry1 _ _ _ _ H2 (proj1 H1)).
  apply (omega_table_rev_root _ _ _ _ _ Hwi) in H1.
  destruct (ntt_ct_std2rev_naive_correct_L k (psii ^ 2) a _ Hk Rwi H1 H3 HL Ha) as (r & E & L & I & R).
  exists r. split; [exact E|]. split; [exact L|]. split; [exact I|]. intros j Hj. rewrite R by exact Hj. apply ntt_post1.
Qed.

Lemma t_v_intt_ct_rev2std : r2s k (- Q + 1) (Q - 1) (- Q + 1) (Q - 1) (psii ^ 2) (fun _ => 1) (fun _ => 1) (v_intt_ct_rev2std (2 ^ k) T).
Proof.
  intros a HL Ha. destruct (ok_inv_omega_powers _ _ _ HT) as [H1 H2].
  assert (H3 := entry1 _ _ _ _ H2 (proj1 H1)).
  apply (omega_table_root _ _ _ _ _ Hwi) in H1.
  destruct (ntt_ct_rev2std_naive_correct_L k (psii ^ 2) a _ Hk Rwi H1 H3 HL Ha) as (r & E & L & I & R).
  exists r. split; [exact E|]. split; [exact L|]. split; [exact I|]. intros j Hj. rewrite R by exact Hj. apply ntt_post1.
Qed.

Lemma t_v_intt_gs_std2rev : s2r k (- Q + 1) (Q - 1) (- Q + 1) (Q - 1) (psii ^ 2) (fun _ => 1) (fun _ => 1) (v_intt_gs_std2rev (2 ^ k) T).
Proof.
  intros a HL Ha. destruct (ok_inv_omega_powers _ _ _ HT) as [H1 H2].
  assert (H3 := entry1 _ _ _ _ H2 (proj1 H1)).
  apply (omega_table_root _ _ _ _ _ Hwi) in H1.
  destruct (ntt_gs_std2rev_naive_correct_L k (psii ^ 2) a _ Hk Rwi H1 H3 HL Ha) as (r & E & L & I & R).
  exists r. split; [exact E|]. split; [exact L|]. split; [exact I|]. intros j Hj. rewrite R by exact Hj. apply ntt_post1.
Qed.

Lemma t_v_intt_gs_rev2std : r2s k (- Q + 1) (Q - 1) (- Q + 1) (Q - 1) (psii ^ 2) (fun _ => 1) (fun _ => 1) (v_intt_gs_rev2std (2 ^ k) T).
Proof.
  intros a HL Ha. destruct (ok_inv_omega_powers_rev _ _ _ HT) as [H1 H2].
  assert (H3 := entry1 _ _ _ _ H2 (proj1 H1)).
  apply (omega_table_rev_root _ _ _ _ _ Hwi) in H1.
  destruct (ntt_gs_rev2std_naive_correct_L k (psii ^ 2) a _ Hk Rwi H1 H3 HL Ha) as (r & E & L & I & R).
  exists r. split; [exact E|]. split; [exact L|]. split; [exact I|]. intros j Hj. rewrite R by exact Hj. apply ntt_post1.
Qed.

Lemma t_v_mulntt_ct_std2rev : s2r k (- Q + 1) (Q - 1) (- Q + 1) (Q - 1) (psi ^ 2) (fun i => psi ^ i) (fun _ => 1) (v_mulntt_ct_std2rev (2 ^ k) T).
Proof.
  intros a HL Ha. destruct (ok_mixed_rev _ _ _ HT) as [H1 H2].
  assert (H3 := entry1 _ _ _ _ H2 (proj1 H1)).
  destruct (mulntt_ct_std2rev_naive_correct_L k psi a _ Hk Hpsi H1 H3 HL Ha) as (r & E & L & I & R).
  exists r. split; [exact E|]. split; [exact L|]. split; [exact I|]. intros j Hj. rewrite R by exact Hj.
  rewrite Z.mul_1_l. reflexivity.
Qed.

Lemma t_v_inttmul_gs_std2rev : s2r k (- Q + 1) (Q - 1) (- Q + 1) (Q - 1) (psii ^ 2) (fun _ => 1) (fun i => psii ^ i) (v_inttmul_gs_std2rev (2 ^ k) T).
Proof.
  intros a HL Ha. destruct (ok_inv_mixed _ _ _ HT) as [H1 H2].
  assert (H3 := entry1 _ _ _ _ H2 (proj1 H1)).
  destruct (nttmul_gs_std2rev_naive_correct_L k psii a _ Hk Rpi H1 H3 HL Ha) as (r & E & L & I & R).
  exists r. split; [exact E|]. split; [exact L|]. split; [exact I|]. intros j Hj. rewrite R by exact Hj.
  apply eqQ_mul; [reflexivity|]. apply NTT_extQ. intros i _. rewrite Z.mul_1_r. reflexivity.
Qed.

Lemma t_v_mulntt_ct_rev2std : r2s k (- Q + 1) (Q - 1) (- Q + 1) (Q - 1) (psi ^ 2) (fun i => psi ^ i) (fun _ => 1) (v_mulntt_ct_rev2std (2 ^ k) T).
Proof.
  intros a HL Ha. destruct (ok_mixed _ _ _ HT) as [H1 H2].
  assert (H3 := entry1 _ _ _ _ H2 (proj1 H1)).
  destruct (mulntt_ct_rev2std_naive_correct_L k psi a _ Hk Hpsi H1 H3 HL Ha) as (r & E & L & I & R).
  exists r. split; [exact E|]. split; [exact L|]. split; [exact I|]. intros j Hj. rewrite R by exact Hj.
  rewrite Z.mul_1_l. reflexivity.
Qed.

Lemma t_v_inttmul_gs_rev2std : r2s k (- Q + 1) (Q - 1) (- Q + 1) (Q - 1) (psii ^ 2) (fun _ => 1) (fun i => psii ^ i) (v_inttmul_gs_rev2std (2 ^ k) T).
Proof.
  intros a HL Ha. destruct (ok_inv_mixed_rev _ _ _ HT) as [H1 H2].
  assert (H3 := entry1 _ _ _ _ H2 (proj1 H1)).
  destruct (nttmul_gs_rev2std_naive_correct_L k psii a _ Hk Rpi H1 H3 HL Ha) as (r & E & L & I & R).
  exists r. split; [exact E|]. split; [exact L|]. split; [exact I|]. intros j Hj. rewrite R by exact Hj.
  apply eqQ_mul; [reflexivity|]. apply NTT_extQ. intros i _. rewrite Z.mul_1_r. reflexivity.
Qed.

Definition v_pairs : list ((list Z -> res (list Z)) * (list Z -> res (list Z))) :=
  let n := 2 ^ k in
  [(v_ct_std2rev n T, v_intt_ct_rev2std n T); (v_ct_std2rev n T, v_intt_gs_rev2std n T);
   (v_gs_std2rev n T, v_intt_ct_rev2std n T); (v_gs_std2rev n T, v_intt_gs_rev2std n T);
   (v_ct_rev2std n T, v_intt_ct_std2rev n T); (v_ct_rev2std n T, v_intt_gs_std2rev n T);
   (v_gs_rev2std n T, v_intt_ct_std2rev n T); (v_gs_rev2std n T, v_intt_gs_std2rev n T);
   (v_mulntt_ct_std2rev n T, v_inttmul_gs_rev2std n T);
   (v_mulntt_ct_rev2std n T, v_inttmul_gs_std2rev n T)].

Lemma v_round F G : In (F, G) v_pairs -> forall a, zlen a = 2 ^ k -> all_in (- Q + 1) (Q - 1) a ->
  exists r, (do x <- F a; do y <- (fun x => Ok x) x; G y) = Ok r /\ zlen r = 2 ^ k /\ all_in (- Q + 1) (Q - 1) r
    /\ forall i, 0 <= i < 2 ^ k -> eqQ (at_ r i) (1 * (2 ^ k * at_ a i)).
Proof.
  intros HIn.
  assert (HM := scales_id k (- Q + 1) (Q - 1)).
  Local Ltac one := match goal with H : (_, _) = (_, _) |- _ => injection H as <- <- end.
  cbn [v_pairs In] in HIn. destruct HIn as [H|[H|[H|[H|[H|[H|[H|[H|[H|[H|[]]]]]]]]]]]; one.
  - exact (trip_s2r k (psi ^ 2) (psii ^ 2) Hk0 Rw Oinv _ _ _ _ _ _ _ _ _ _ _ _ _ _ HM (pp1 k) t_v_ct_std2rev t_v_intt_ct_rev2std).
  - exact (trip_s2r k (psi ^ 2) (psii ^ 2) Hk0 Rw Oinv _ _ _ _ _ _ _ _ _ _ _ _ _ _ HM (pp1 k) t_v_ct_std2rev t_v_intt_gs_rev2std).
  - exact (trip_s2r k (psi ^ 2) (psii ^ 2) Hk0 Rw Oinv _ _ _ _ _ _ _ _ _ _ _ _ _ _ HM (pp1 k) t_v_gs_std2rev t_v_intt_ct_rev2std).
  - exact (trip_s2r k (psi ^ 2) (psii ^ 2) Hk0 Rw Oinv _ _ _ _ _ _ _ _ _ _ _ _ _ _ HM (pp1 k) t_v_gs_std2rev t_v_intt_gs_rev2std).
  - exact (trip_r2s k (psi ^ 2) (psii ^ 2) Hk0 Rw Oinv _ _ _ _ _ _ _ _ _ _ _ _ _ _ HM (pp1 k) t_v_ct_rev2std t_v_intt_ct_std2rev).
  - exact (trip_r2s k (psi ^ 2) (psii ^ 2) Hk0 Rw Oinv _ _ _ _ _ _ _ _ _ _ _ _ _ _ HM (pp1 k) t_v_ct_rev2std t_v_intt_gs_std2rev).
  - exact (trip_r2s k (psi ^ 2) (psii ^ 2) Hk0 Rw Oinv _ _ _ _ _ _ _ _ _ _ _ _ _ _ HM (pp1 k) t_v_gs_rev2std t_v_intt_ct_std2rev).
  - exact (trip_r2s k (psi ^ 2) (psii ^ 2) Hk0 Rw Oinv _ _ _ _ _ _ _ _ _ _ _ _ _ _ HM (pp1 k) t_v_gs_rev2std t_v_intt_gs_std2rev).
  - exact (trip_s2r k (psi ^ 2) (psii ^ 2) Hk0 Rw Oinv _ _ _ _ _ _ _ _ _ _ _ _ _ _ HM (pp_psi k psi psii Hpi) t_v_mulntt_ct_std2rev t_v_inttmul_gs_rev2std).
  - exact (trip_r2s k (psi ^ 2) (psii ^ 2) Hk0 Rw Oinv _ _ _ _ _ _ _ _ _ _ _ _ _ _ HM (pp_psi k psi psii Hpi) t_v_mulntt_ct_rev2std t_v_inttmul_gs_std2rev).
Qed.
End Naive.

Lemma twice_scales k : 0 <= k <= 10 ->
  scales k (- 2 ^ 31) (2 ^ 31 - 1) (-21499) 21499 9 (fun x => ModelRed.reduce_array_twice x (2 ^ k)).
Proof.
  intros Hk a HL Ha.
  assert (H0 : 0 < 2 ^ k) by (apply pow2_pos; lia).
  assert (H1 : 2 ^ k <= 2 ^ 10) by (apply Z.pow_le_mono_r; lia). change (2 ^ 10) with 1024 in H1.
  destruct (reduce_array_twice_correct_L a (2 ^ k)) as (r & E & L & H2 & _);
    [change (2 ^ 32) with 4294967296; lia|lia|exact Ha|].
  exists r. split; [exact E|]. split; [lia|]. split.
  - apply all_in_of. intros i Hi. assert (H := proj2 (H2 i ltac:(lia))). lia.
  - intros j Hj. apply H2, Hj.
Qed.

Lemma Hk12 k : 0 <= k <= 10 -> 0 <= k <= 12.
Proof. lia. Qed.

Section Red.
Variables (k psi : Z) (T : red_tables).
Hypothesis Hk : 0 <= k <= 10.
Hypothesis Hpsi : eqQ (psi ^ (2 ^ k)) (-1).
Hypothesis HT : red_tables_ok k psi T.
Let psii := r_inv_psi T.
Let Hk0 : 0 <= k := proj1 Hk.
Let Hpi : eqQ (psi * psii) 1 := proj1 (rok_inv_psi _ _ _ HT).
Let Hw : eqQ (r_omega T) (psi ^ 2) := proj1 (rok_omega _ _ _ HT).
Let Hwi : eqQ (r_inv_omega T) (psii ^ 2).
Proof.
  exact (inv_sq psi psii _ _ Hw Hpi (proj1 (rok_inv_omega _ _ _ HT))).
Qed.
Let Rw : 0 < k -> eqQ ((psi ^ 2) ^ (2 ^ (k - 1))) (-1) .
Proof. apply omega_root; assumption. Qed.
Let Rpi : eqQ (psii ^ (2 ^ k)) (-1) .
Proof. apply (psi_inv_root k psi psii); assumption. Qed.
Let Rwi : 0 < k -> eqQ ((psii ^ 2) ^ (2 ^ (k - 1))) (-1) .
Proof. apply omega_root; assumption. Qed.
Let Oinv : eqQ (psi ^ 2 * psii ^ 2) 1 .
Proof. apply omega_inv; assumption. Qed.

Lemma t_r_ct_std2rev : s2r k (-21499) 21499 (- 2 ^ 31) (2 ^ 31 - 1) (psi ^ 2) (fun _ => 1) (fun _ => 1) (r_ct_std2rev (2 ^ k) T).
Proof.
  intros a HL Ha. destruct (rok_omega_powers_rev _ _ _ HT) as [H1 H2].
  assert (H3 := entry1 _ _ _ _ H2 (proj1 H1)).
  apply (omega_table_rev_root _ _ _ _ _ Hw) in H1.
  destruct (ntt_red_ct_std2rev_correct_L k (psi ^ 2) a _ (Hk12 k Hk) Rw H1 H3 HL Ha) as (r & E & L & I & R).
  exists r. split; [exact E|]. split; [exact L|]. split; [exact I|]. intros j Hj. rewrite R by exact Hj. apply ntt_post1.
Qed.

Lemma t_r_ct_rev2std : r2s k (-21499) 21499 (- 2 ^ 31) (2 ^ 31 - 1) (psi ^ 2) (fun _ => 1) (fun _ => 1) (r_ct_rev2std (2 ^ k) T).
Proof.
  intros a HL Ha. destruct (rok_omega_powers _ _ _ HT) as [H1 H2].
  assert (H3 := entry1 _ _ _ _ H2 (proj1 H1)).
  apply (omega_table_root _ _ _ _ _ Hw) in H1.
  destruct (ntt_red_ct_rev2std_correct_L k (psi ^ 2) a _ (Hk12 k Hk) Rw H1 H3 HL Ha) as (r & E & L & I & R).
  exists r. split; [exact E|]. split; [exact L|]. split; [exact I|]. intros j Hj. rewrite R by exact Hj. apply ntt_post1.
Qed.

Lemma t_r_gs_std2rev : s2r k (-21499) 21499 (- 2 ^ 31) (2 ^ 31 - 1) (psi ^ 2) (fun _ => 1) (fun _ => 1) (r_gs_std2rev (2 ^ k) T).
Proof.
  intros a HL Ha. destruct (rok_omega_powers _ _ _ HT) as [H1 H2].
  assert (H3 := entry1 _ _ _ _ H2 (proj1 H1)).
  apply (omega_table_root _ _ _ _ _ Hw) in H1.
  destruct (ntt_red_gs_std2rev_correct_L k (psi ^ 2) a _ Hk Rw H1 H3 HL Ha) as (r & E & L & I & R).
  exists r. split; [exact E|]. split; [exact L|]. split; [exact I|]. intros j Hj. rewrite R by exact Hj. apply ntt_post1.
Qed.

Lemma t_r_gs_rev2std : r2s k (-21499) 21499 (- 2 ^ 31) (2 ^ 31 - 1) (psi ^ 2) (fun _ => 1) (fun _ => 1) (r_gs_rev2std (2 ^ k) T).
Proof.
  intros a HL Ha. destruct (rok_omega_powers_rev _ _ _ HT) as [H1 H2].
  assert (H3 := entry1 _ _ _ _ H2 (proj1 H1)).
  apply (omega_table_rev_root _ _ _ _ _ Hw) in H1.
  destruct (ntt_red_gs_rev2std_correct_L k (psi ^ 2) a _ Hk Rw H1 H3 HL Ha) as (r & E & L & I & R).
  exists r. split; [exact E|]. split; [exact L|]. split; [exact I|]. intros j Hj. rewrite R by exact Hj. apply ntt_post1.
Qed.

Lemma t_r_intt_ct_std2rev : s2r k (-21499) 21499 (- 2 ^ 31) (2 ^ 31 - 1) (psii ^ 2) (fun _ => 1) (fun _ => 1) (r_intt_ct_std2rev (2 ^ k) T).
Proof.
  intros a HL Ha. destruct (rok_inv_omega_powers_rev _ _ _ HT) as [H1 H2].
  assert (H3 := entry1 _ _ _ _ H2 (proj1 H1)).
  apply (omega_table_rev_root _ _ _ _ _ Hwi) in H1.
  destruct (ntt_red_ct_std2rev_correct_L k (psii ^ 2) a _ (Hk12 k Hk) Rwi H1 H3 HL Ha) as (r & E & L & I & R).
  exists r. split; [exact E|]. split; [exact L|]. split; [exact I|]. intros j Hj. rewrite R by exact Hj. apply ntt_post1.
Qed.

Lemma t_r_intt_ct_rev2std : r2s k (-21499) 21499 (- 2 ^ 31) (2 ^ 31 - 1) (psii ^ 2) (fun _ => 1) (fun _ => 1) (r_intt_ct_rev2std (2 ^ k) T).
Proof.
  intros a HL Ha. destruct (rok_inv_omega_powers _ _ _ HT) as [H1 H2].
  assert (H3 := entry1 _ _ _ _ H2 (proj1 H1)).
  apply (omega_table_root _ _ _ _ _ Hwi) in H1.
  destruct (ntt_red_ct_rev2std_correct_L k (psii ^ 2) a _ (Hk12 k Hk) Rwi H1 H3 HL Ha) as (r & E & L & I & R).
  exists r. split; [exact E|]. split; [exact L|]. split; [exact I|]. intros j Hj. rewrite R by exact Hj. apply ntt_post1.
Qed.

Lemma t_r_intt_gs_std2rev : s2r k (-21499) 21499 (- 2 ^ 31) (2 ^ 31 - 1) (psii ^ 2) (fun _ => 1) (fun _ => 1) (r_intt_gs_std2rev (2 ^ k) T).
Proof.
  intros a HL Ha. destruct (rok_inv_omega_powers _ _ _ HT) as [H1 H2].
  assert (H3 := entry1 _ _ _ _ H2 (proj1 H1)).
  apply (omega_table_root _ _ _ _ _ Hwi) in H1.
  destruct (ntt_red_gs_std2rev_correct_L k (psii ^ 2) a _ Hk Rwi H1 H3 HL Ha) as (r & E & L & I & R).
  exists r. split; [exact E|]. split; [exact L|]. split; [exact I|]. intros j Hj. rewrite R by exact Hj. apply ntt_post1.
Qed.

Lemma t_r_intt_gs_rev2std : r2s k (-21499) 21499 (- 2 ^ 31) (2 ^ 31 - 1) (psii ^ 2) (fun _ => 1) (fun _ => 1) (r_intt_gs_rev2std (2 ^ k) T).
Proof.
  intros a HL Ha. destruct (rok_inv_omega_powers_rev _ _ _ HT) as [H1 H2].
  assert (H3 := entry1 _ _ _ _ H2 (proj1 H1)).
  apply (omega_table_rev_root _ _ _ _ _ Hwi) in H1.
  destruct (ntt_red_gs_rev2std_correct_L k (psii ^ 2) a _ Hk Rwi H1 H3 HL Ha) as (r & E & L & I & R).
  exists r. split; [exact E|]. split; [exact L|]. split; [exact I|]. intros j Hj. rewrite R by exact Hj. apply ntt_post1.
Qed.

Lemma t_r_mulntt_ct_std2rev : s2r k (-21499) 21499 (- 2 ^ 31) (2 ^ 31 - 1) (psi ^ 2) (fun i => psi ^ i) (fun _ => 1) (r_mulntt_ct_std2rev (2 ^ k) T).
Proof.
  intros a HL Ha. destruct (rok_mixed_rev _ _ _ HT) as [H1 H2].
  assert (H3 := entry1 _ _ _ _ H2 (proj1 H1)).
  destruct (mulntt_red_ct_std2rev_correct_L k psi a _ (Hk12 k Hk) Hpsi H1 H3 HL Ha) as (r & E & L & I & R).
  exists r. split; [exact E|]. split; [exact L|]. split; [exact I|]. intros j Hj. rewrite R by exact Hj.
  rewrite Z.mul_1_l. reflexivity.
Qed.

Lemma t_r_inttmul_gs_std2rev : s2r k (-21499) 21499 (- 2 ^ 31) (2 ^ 31 - 1) (psii ^ 2) (fun _ => 1) (fun i => psii ^ i) (r_inttmul_gs_std2rev (2 ^ k) T).
Proof.
  intros a HL Ha. destruct (rok_inv_mixed _ _ _ HT) as [H1 H2].
  assert (H3 := entry1 _ _ _ _ H2 (proj1 H1)).
  destruct (nttmul_red_gs_std2rev_correct_L k psii a _ Hk Rpi H1 H3 HL Ha) as (r & E & L & I & R).
  exists r. split; [exact E|]. split; [exact L|]. split; [exact I|]. intros j Hj. rewrite R by exact Hj.
  apply eqQ_mul; [reflexivity|]. apply NTT_extQ. intros i _. rewrite Z.mul_1_r. reflexivity.
Qed.

Lemma t_r_mulntt_ct_rev2std : r2s k (-21499) 21499 (- 2 ^ 31) (2 ^ 31 - 1) (psi ^ 2) (fun i => psi ^ i) (fun _ => 1) (r_mulntt_ct_rev2std (2 ^ k) T).
Proof.
  intros a HL Ha. destruct (rok_mixed _ _ _ HT) as [H1 H2].
  assert (H3 := entry1 _ _ _ _ H2 (proj1 H1)).
  destruct (mulntt_red_ct_rev2std_correct_L k psi a _ (Hk12 k Hk) Hpsi H1 H3 HL Ha) as (r & E & L & I & R).
  exists r. split; [exact E|]. split; [exact L|]. split; [exact I|]. intros j Hj. rewrite R by exact Hj.
  rewrite Z.mul_1_l. reflexivity.
Qed.

Lemma t_r_inttmul_gs_rev2std : r2s k (-21499) 21499 (- 2 ^ 31) (2 ^ 31 - 1) (psii ^ 2) (fun _ => 1) (fun i => psii ^ i) (r_inttmul_gs_rev2std (2 ^ k) T).
Proof.
  intros a HL Ha. destruct (rok_inv_mixed_rev _ _ _ HT) as [H1 H2].
  assert (H3 := entry1 _ _ _ _ H2 (proj1 H1)).
  destruct (nttmul_red_gs_rev2std_correct_L k psii a _ Hk Rpi H1 H3 HL Ha) as (r & E & L & I & R).
  exists r. split; [exact E|]. split; [exact L|]. split; [exact I|]. intros j Hj. rewrite R by exact Hj.
  apply eqQ_mul; [reflexivity|]. apply NTT_extQ. intros i _. rewrite Z.mul_1_r. reflexivity.
Qed.

Definition r_pairs : list ((list Z -> res (list Z)) * (list Z -> res (list Z))) :=
  let n := 2 ^ k in
  [(r_ct_std2rev n T, r_intt_ct_rev2std n T); (r_ct_std2rev n T, r_intt_gs_rev2std n T);
   (r_gs_std2rev n T, r_intt_ct_rev2std n T); (r_gs_std2rev n T, r_intt_gs_rev2std n T);
   (r_ct_rev2std n T, r_intt_ct_std2rev n T); (r_ct_rev2std n T, r_intt_gs_std2rev n T);
   (r_gs_rev2std n T, r_intt_ct_std2rev n T); (r_gs_rev2std n T, r_intt_gs_std2rev n T);
   (r_mulntt_ct_std2rev n T, r_inttmul_gs_rev2std n T);
   (r_mulntt_ct_rev2std n T, r_inttmul_gs_std2rev n T)].

Lemma r_round F G : In (F, G) r_pairs -> forall a, zlen a = 2 ^ k -> all_in (-21499) 21499 a ->
  exists r, (do x <- F a; do y <- (fun x => ModelRed.reduce_array_twice x (2 ^ k)) x; G y) = Ok r /\ zlen r = 2 ^ k /\ all_in (- 2 ^ 31) (2 ^ 31 - 1) r
    /\ forall i, 0 <= i < 2 ^ k -> eqQ (at_ r i) (9 * (2 ^ k * at_ a i)).
Proof.
  intros HIn.
  assert (HM := twice_scales k Hk).
  Local Ltac one := match goal with H : (_, _) = (_, _) |- _ => injection H as <- <- end.
  cbn [r_pairs In] in HIn. destruct HIn as [H|[H|[H|[H|[H|[H|[H|[H|[H|[H|[]]]]]]]]]]]; one.
  - exact (trip_s2r k (psi ^ 2) (psii ^ 2) Hk0 Rw Oinv _ _ _ _ _ _ _ _ _ _ _ _ _ _ HM (pp1 k) t_r_ct_std2rev t_r_intt_ct_rev2std).
  - exact (trip_s2r k (psi ^ 2) (psii ^ 2) Hk0 Rw Oinv _ _ _ _ _ _ _ _ _ _ _ _ _ _ HM (pp1 k) t_r_ct_std2rev t_r_intt_gs_rev2std).
  - exact (trip_s2r k (psi ^ 2) (psii ^ 2) Hk0 Rw Oinv _ _ _ _ _ _ _ _ _ _ _ _ _ _ HM (pp1 k) t_r_gs_std2rev t_r_intt_ct_rev2std).
  - exact (trip_s2r k (psi ^ 2) (psii ^ 2) Hk0 Rw Oinv _ _ _ _ _ _ _ _ _ _ _ _ _ _ HM (pp1 k) t_r_gs_std2rev t_r_intt_gs_rev2std).
  - exact (trip_r2s k (psi ^ 2) (psii ^ 2) Hk0 Rw Oinv _ _ _ _ _ _ _ _ _ _ _ _ _ _ HM (pp1 k) t_r_ct_rev2std t_r_intt_ct_std2rev).
  - exact (trip_r2s k (psi ^ 2) (psii ^ 2) Hk0 Rw Oinv _ _ _ _ _ _ _ _ _ _ _ _ _ _ HM (pp1 k) t_r_ct_rev2std t_r_intt_gs_std2rev).
  - exact (trip_r2s k (psi ^ 2) (psii ^ 2) Hk0 Rw Oinv _ _ _ _ _ _ _ _ _ _ _ _ _ _ HM (pp1 k) t_r_gs_rev2std t_r_intt_ct_std2rev).
  - exact (trip_r2s k (psi ^ 2) (psii ^ 2) Hk0 Rw Oinv _ _ _ _ _ _ _ _ _ _ _ _ _ _ HM (pp1 k) t_r_gs_rev2std t_r_intt_gs_std2rev).
  - exact (trip_s2r k (psi ^ 2) (psii ^ 2) Hk0 Rw Oinv _ _ _ _ _ _ _ _ _ _ _ _ _ _ HM (pp_psi k psi psii Hpi) t_r_mulntt_ct_std2rev t_r_inttmul_gs_rev2std).
  - exact (trip_r2s k (psi ^ 2) (psii ^ 2) Hk0 Rw Oinv _ _ _ _ _ _ _ _ _ _ _ _ _ _ HM (pp_psi k psi psii Hpi) t_r_mulntt_ct_rev2std t_r_inttmul_gs_std2rev).
Qed.
End Red.
